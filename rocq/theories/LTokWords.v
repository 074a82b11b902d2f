(** Proofs about the tokenizer on plain words. *)
From Coq Require Import Ascii String.
From Coq Require Import List NArith ZArith Arith Bool Lia.
From Verif Require Import PyBase Regex MTokenizer SText STok LBase LText LRegex LSub LSentencizer LRestore LTok.
Import ListNotations.
Local Open Scope nat_scope.

(** the symbols at least one of which is in any text a rule other than the one of cannot rewrites *)
Definition symbols : list char :=
  [39;46;58;59;47;40;41;62;60;61;33;63;8230;34;124;92;123;125;91;93;8211;8212;42;43;38;37;44;45;95;8216;8217;8242;8220;8221;8243]%N.

Lemma app_inj_len {A} (a b c d : list A) : a ++ b = c ++ d -> length a = length c -> a = c /\ b = d.
Proof. revert c. induction a as [|x a IH]; intros [|y c] E L; try discriminate; cbn in *; [auto|]. injection E as -> E. injection L as L. destruct (IH c E L) as [-> ->]. auto. Qed.
Section Words.
  Context (U : udb) (OK : udb_ok U).
  Notation words := (split_ws (u_space U)).
  Lemma space32 : u_space U 32%N = true.
  Proof. rewrite (ok_space _ OK) by lia. reflexivity. Qed.

  Lemma words_spaces s : (forall c, In c s -> u_space U c = true) -> words s = [].
  Proof. induction s as [|c s IH]; intros H; [reflexivity|]. rewrite split_ws_cons_space by (apply H; left; reflexivity). apply IH. intros d Hd. apply H. right. exact Hd. Qed.
  Lemma words_skip s t : (forall c, In c s -> u_space U c = true) -> words (s ++ t) = words t.
  Proof. induction s as [|c s IH]; intros H; [reflexivity|]. cbn [app]. rewrite split_ws_cons_space by (apply H; left; reflexivity). apply IH. intros d Hd. apply H. right. exact Hd. Qed.
  Lemma words_app_r x y : (forall c y', y = c :: y' -> u_space U c = true) -> words (x ++ y) = words x ++ words y.
  Proof.
    intros H. destruct y as [|c y]; [rewrite app_nil_r; cbn; rewrite app_nil_r; reflexivity|]. rewrite split_ws_app_space by (eapply H; reflexivity). rewrite (split_ws_cons_space _ c y) by (eapply H; reflexivity). reflexivity.
  Qed.
  Lemma words_app_l x y : (forall x' c, x = x' ++ [c] -> u_space U c = true) -> words (x ++ y) = words x ++ words y.
  Proof.
    intros H. destruct x as [|c x _] using rev_ind; [reflexivity|]. rewrite <- app_assoc. cbn [app]. specialize (H x c eq_refl). rewrite split_ws_app_space by exact H. rewrite (split_ws_app_space _ x c []) by exact H. cbn. rewrite app_nil_r. reflexivity.
  Qed.
  Lemma words_of_fun text ws : words_of U text ws -> words text = ws.
  Proof.
    induction 1 as [s H|s w rest ws Hs Hn Hw Hr H IH]; [apply words_spaces; exact H|]. rewrite words_skip by exact Hs. rewrite words_app_r by exact Hr. rewrite IH. rewrite split_ws_word; [reflexivity|exact Hn|]. apply Forall_forall. exact Hw.
  Qed.
  Lemma span_spaces (p : char -> bool) s : exists a b, s = a ++ b /\ (forall c, In c a -> p c = true) /\ (forall c b', b = c :: b' -> p c = false).
  Proof.
    induction s as [|c s (a & b & E & Ha & Hb)]; [exists [], []; cbn; repeat split; [tauto|discriminate]|]. destruct (p c) eqn:Ep.
    - exists (c :: a), b. subst s. repeat split; [|exact Hb]. intros d [<-|Hd]; auto.
    - exists [], (c :: s). repeat split; [intros d []|]. intros d b' Ed. injection Ed as <- _. exact Ep.
  Qed.
  Lemma words_of_total text : exists ws, words_of U text ws.
  Proof.
    assert (forall n text, length text <= n -> exists ws, words_of U text ws) as H.
    { induction n as [|n IH]; intros t Hn.
      - destruct t; [|cbn in Hn; lia]. exists []. apply words_none. intros c [].
      - destruct (span_spaces (u_space U) t) as (s & t1 & -> & Hs & Ht1). destruct t1 as [|c t1]; [exists []; rewrite app_nil_r; apply words_none; exact Hs|].
        destruct (span_spaces (fun c => negb (u_space U c)) (c :: t1)) as (w & rest & E & Hw & Hr).
        destruct w as [|c' w]; [cbn in E; subst rest; specialize (Hr c t1 eq_refl); rewrite (Ht1 c t1 eq_refl) in Hr; discriminate|].
        destruct (IH rest) as (ws & W). { apply (f_equal (@length char)) in E. rewrite app_length in E, Hn. cbn [length] in E, Hn. unfold str, char in *. lia. }
        exists ((c' :: w) :: ws). rewrite E. apply words_next; auto; [discriminate| |].
        + intros d Hd. specialize (Hw d Hd). apply negb_true_iff in Hw. exact Hw.
        + intros d r Er. specialize (Hr d r Er). apply negb_false_iff in Hr. exact Hr. }
    apply (H (length text)). lia.
  Qed.
  (** where a word stands *)
  Lemma words_split text w : In w (words text) -> exists x y, text = x ++ w ++ y /\ (forall x' c, x = x' ++ [c] -> u_space U c = true) /\ (forall c y', y = c :: y' -> u_space U c = true).
  Proof.
    destruct (words_of_total text) as (ws & W). rewrite (words_of_fun _ _ W). induction W as [s H|s w0 rest ws Hs Hn Hw Hr H IH]; intros Hi; [destruct Hi|]. destruct Hi as [->|Hi].
    - exists s, rest. split; [reflexivity|]. split; [|exact Hr]. intros x' c ->. apply Hs. rewrite in_app_iff. right. left. reflexivity.
    - destruct (IH Hi) as (x & y & -> & Hx & Hy). exists (s ++ w0 ++ x), y. split; [rewrite <- !app_assoc; reflexivity|]. split; [|exact Hy]. intros x' c E. destruct x as [|d x _] using rev_ind.
      + exfalso. pose proof (split_ws_words (u_space U) (w ++ y)) as F. rewrite Forall_forall in F. destruct w as [|c0 w]; [|].
        * cbn [app] in *. assert (In [] (words y)) by (rewrite (words_of_fun _ _ H); exact Hi). specialize (F _ H0). destruct F as [F _]. apply F. reflexivity.
        * specialize (Hr c0 (w ++ y) eq_refl). assert (In (c0 :: w) (words ((c0 :: w) ++ y))) as Hi2 by (cbn [app] in H |- *; rewrite (words_of_fun _ _ H); exact Hi). specialize (F _ Hi2). destruct F as [_ F]. inversion F. congruence.
      + apply (Hx x). f_equal. rewrite !app_assoc in E. apply app_inj_tail in E. destruct E as [_ ->]. reflexivity.
  Qed.

  (** *** the rule of cannot *)
  Definition asc (c : char) : Prop := alnum c \/ c = 32%N.
  Lemma asc_lt c : asc c -> (c < 128)%N.
  Proof. unfold asc, alnum. lia. Qed.
  Lemma lower_char c d : asc d -> (97 <= c <= 122)%N -> cset_match U true (cc c) d = true <-> uncapital d = c.
  Proof.
    intros Hd Hc. unfold cset_match, cc, cls. cbn [cs_neg cs_items existsb]. rewrite xorb_false_l, orb_false_r. unfold citem_match. rewrite existsb_exists. split.
    - intros (e & He & E). apply andb_true_iff in E. rewrite !N.leb_le in E. assert (e = c) by lia. subst e. destruct (ok_var_letter _ OK d c (asc_lt _ Hd) He) as [->| ->]; [lia| |].
      + unfold uncapital. destruct (_ && _)%bool eqn:E1; [|reflexivity]. apply andb_true_iff in E1. rewrite !N.leb_le in E1. lia.
      + unfold ascii_swap, uncapital in *. unfold is_upper, is_lower in *. destruct (_ && _)%bool eqn:E1; [reflexivity|]. destruct ((97 <=? d) && (d <=? 122))%N eqn:E2; [|reflexivity]. apply andb_true_iff in E2. rewrite !N.leb_le in E2. lia.
    - intros E. assert (c = d \/ c = ascii_swap d) as Hx.
      { unfold uncapital in E. unfold ascii_swap, is_upper. destruct (_ && _)%bool; [right; congruence|left; congruence]. }
      exists c. split; [|rewrite !N.leb_refl; reflexivity]. destruct Hx as [->| ->]; [apply (ok_var_self _ OK)|apply (ok_var_swap _ OK); apply asc_lt; exact Hd].
  Qed.
  Lemma lower_word s x : Forall (fun c => (97 <= c <= 122)%N) s -> Forall asc x -> lang U true (word s) x <-> map uncapital x = s.
  Proof.
    intros Hs Hx. split.
    - intros L. apply lang_word in L. revert Hs Hx. induction L as [|c d s x E L IH]; intros Hs Hx; [reflexivity|]. inversion Hs; inversion Hx; subst. cbn. f_equal; [apply lower_char; assumption|apply IH; assumption].
    - revert s Hs. induction Hx as [|d x Hd Hx IH]; intros s Hs E; cbn [map] in E; subst s; [reflexivity|]. inversion Hs; subst. assert (D : lang U true (ch (uncapital d)) [d]) by (exists d; split; [reflexivity|apply lower_char; auto]).
      specialize (IH _ H2 eq_refl). destruct x as [|e x]; [exact D|]. exists [d], (e :: x). split; [reflexivity|]. split; [exact D|exact IH].
  Qed.

  Lemma lits s : forallb (fun c => (97 <=? c) && (c <=? 122))%N s = true -> Forall (fun c => (97 <= c <= 122)%N) s.
  Proof. rewrite forallb_forall, Forall_forall. intros H c Hc. specialize (H c Hc). apply andb_true_iff in H. rewrite !N.leb_le in H. exact H. Qed.
  Definition cannot_re : re := seqs [Bound true; Grp 1 (Regex.w "can"); Grp 2 (Regex.w "not"); Bound true].
  Definition at_start (b : str) : Prop := (b = [] \/ exists c b', b = c :: b' /\ u_space U c = true).
  Lemma alnum_word c : alnum c -> u_word U c = true.
  Proof.
    intros H. rewrite (ok_word _ OK) by (unfold alnum in H; lia). unfold ascii_word, is_letter, is_upper, is_lower, is_digit. rewrite !orb_true_iff, !andb_true_iff, !N.leb_le. unfold alnum in H. lia.
  Qed.
  Lemma asc_not_word c : asc c -> u_word U c = false -> u_space U c = true.
  Proof. intros [H| ->] E; [rewrite alnum_word in E by exact H; discriminate|apply space32]. Qed.
  Lemma rev_last {A} (x x' : list A) c : rev x = c :: x' -> x = rev x' ++ [c].
  Proof. intros E. rewrite <- (rev_involutive x), E. reflexivity. Qed.
  Lemma is_cannot_len w0 : is_cannot w0 -> length w0 = 6.
  Proof. intros H. apply (f_equal (@length char)) in H. rewrite map_length in H. exact H. Qed.
  Lemma asc_lower c : (97 <= uncapital c <= 122)%N -> asc c -> alnum c.
  Proof. intros H [Ha| ->]; [exact Ha|]. cbn in H. lia. Qed.
  (** a match of the rule is the word cannot, between whitespace or ends *)
  Lemma cannot_match b a st : (forall c b', b = c :: b' -> asc c) -> Forall asc a -> match_at U true cannot_re b a = Some st ->
    exists can not y, a = (can ++ not) ++ y /\ is_cannot (can ++ not) /\ length can = 3 /\ Regex.group st 1 = can /\ Regex.group st 2 = not /\ aft st = y /\
      (b = [] \/ exists c b', b = c :: b' /\ u_space U c = true) /\ (forall c y', y = c :: y' -> u_space U c = true).
  Proof.
    intros Hb Ha M. apply match_at_some in M. unfold cannot_re in M. cbn [seqs] in M.
    apply seq_inv in M. destruct M as (s1 & B1 & M). apply bound_inv in B1. destruct B1 as [-> E1]. apply seq_inv in M. destruct M as (s2 & G1 & M). apply grp_inv in G1. destruct G1 as (s3 & W1 & ->).
    apply seq_inv in M. destruct M as (s5 & G2 & B2). apply grp_inv in G2. destruct G2 as (s4 & W2 & ->). apply bound_inv in B2. destruct B2 as [-> E2].
    pose proof (word_caps _ _ _ _ _ W2) as K2. apply mrel_lang in W1. destruct W1 as (can & A1 & B1 & L1). apply mrel_lang in W2. destruct W2 as (not & A2 & B2 & L2). cbn [aft bef caps] in *. subst a.
    rewrite A2 in Ha. rewrite !Forall_app in Ha. destruct Ha as (H1 & H2 & H3).
    apply lower_word in L1; [|repeat constructor; cbn; lia|exact H1]. apply lower_word in L2; [|repeat constructor; cbn; lia|exact H2].
    assert (C : is_cannot (can ++ not)) by (unfold is_cannot; rewrite map_app; transitivity (lit "can" ++ lit "not"); [f_equal; assumption|reflexivity]).
    exists can, not, (aft s4). split; [rewrite A2, app_assoc; reflexivity|]. split; [exact C|]. split; [apply (f_equal (@length char)) in L1; rewrite map_length in L1; exact L1|].
    split; [unfold Regex.group; cbn [caps dget Nat.eqb]; rewrite K2; cbn [caps dget Nat.eqb]; apply consumed_eq; exact B1|]. split; [unfold Regex.group; cbn [caps dget Nat.eqb]; apply consumed_eq; exact B2|]. split; [reflexivity|].
    split.
    - destruct b as [|c b']; [auto|]. right. exists c, b'. split; [reflexivity|]. apply asc_not_word; [eapply Hb; reflexivity|]. destruct can as [|d can]; [discriminate L1|]. rewrite A2 in E1. cbn [app] in E1. unfold at_word_boundary in E1.
      injection L1 as L1 _. rewrite (alnum_word d) in E1 by (apply asc_lower; [rewrite L1; cbn; lia|inversion H1; assumption]). destruct (u_word U c); [discriminate|reflexivity].
    - intros c y' Ey. rewrite Ey in *. inversion H3; subst. apply asc_not_word; [assumption|]. destruct not as [|d not _] using rev_ind; [discriminate L2|]. rewrite B2, rev_app_distr in E2. cbn [rev app] in E2. unfold at_word_boundary in E2.
      rewrite map_app in L2. change (lit "not") with (lit "no" ++ [116%N]) in L2. apply app_inj_tail in L2. destruct L2 as [_ L2].
      rewrite (alnum_word d) in E2 by (apply asc_lower; [rewrite L2; lia|apply Forall_app in H2; destruct H2 as [_ H2]; inversion H2; assumption]). destruct (u_word U c); [discriminate|reflexivity].
  Qed.
  (** and every such word matches *)
  Lemma cannot_found b w0 y : (b = [] \/ exists c b', b = c :: b' /\ u_space U c = true) -> Forall asc w0 -> is_cannot w0 -> (forall c y', y = c :: y' -> u_space U c = true) ->
    match_at U true cannot_re b (w0 ++ y) <> None.
  Proof.
    intros Hb Hw C Hy F. destruct w0 as [|c1 [|c2 [|c3 [|c4 [|c5 [|c6 [|]]]]]]]; try discriminate C. set (can := [c1; c2; c3]). set (not := [c4; c5; c6]).
    assert (Hw2 : Forall asc can /\ Forall asc not) by (unfold can, not; rewrite <- Forall_app; exact Hw). destruct Hw2 as [H1 H2].
    assert (L1 : lang U true (Regex.w "can") can) by (apply (proj2 (lower_word (lit "can") can ltac:(apply lits; reflexivity) H1)); unfold is_cannot in C; cbn [map] in C; injection C as C1 C2 C3 C4 C5 C6; unfold can; cbn [map]; rewrite ?C1, ?C2, ?C3, ?C4, ?C5, ?C6; reflexivity).
    assert (L2 : lang U true (Regex.w "not") not) by (apply (proj2 (lower_word (lit "not") not ltac:(apply lits; reflexivity) H2)); unfold is_cannot in C; cbn [map] in C; injection C as C1 C2 C3 C4 C5 C6; unfold not; cbn [map]; rewrite ?C1, ?C2, ?C3, ?C4, ?C5, ?C6; reflexivity).
    destruct (lang_mrel U true (Regex.w "can") eq_refl _ L1 b (not ++ y) []) as (cp1 & R1).
    destruct (lang_mrel U true (Regex.w "not") eq_refl _ L2 (rev can ++ b) y ((1, consumed {| bef := b; aft := can ++ not ++ y; caps := [] |} {| bef := rev can ++ b; aft := not ++ y; caps := cp1 |}) :: cp1)) as (cp2 & R2).
    assert (W1 : u_word U c1 = true) by (apply alnum_word; inversion H1; subst; apply asc_lower; [unfold is_cannot in C; cbn [map] in C; injection C as C1 _; rewrite C1; lia|assumption]).
    assert (W6 : u_word U c6 = true) by (apply alnum_word; rewrite Forall_forall in H2; apply asc_lower; [unfold is_cannot in C; cbn [map] in C; injection C as _ _ _ _ _ C6; rewrite C6; lia|apply H2; unfold not; cbn; auto]).
    refine (match_at_none _ _ _ _ _ F _ _). unfold cannot_re. cbn [seqs].
    eapply RSeq; [apply RBound|eapply RSeq; [exact (RGrp _ _ 1 _ _ _ R1)|eapply RSeq; [exact (RGrp _ _ 2 _ _ _ R2)|apply RBound]]]; cbn [bef aft].
    - destruct Hb as [->|(c & b' & -> & Hc)]; unfold at_word_boundary; cbn [app]; rewrite W1; [reflexivity|]. rewrite (ok_space_word _ OK c Hc). reflexivity.
    - unfold at_word_boundary, can, not. cbn [rev app]. rewrite W6. destruct y as [|c y']; [reflexivity|]. rewrite (ok_space_word _ OK c) by (eapply Hy; reflexivity). reflexivity.
  Qed.
  Definition cut_cannot (w0 : str) : list str := if list_eq_dec N.eq_dec (map uncapital w0) (lit "cannot") then [firstn 3 w0; skipn 3 w0] else [w0].
  Lemma cut_cannot_spec ws : plain_tokens ws (flat_map cut_cannot ws).
  Proof.
    induction ws as [|w0 ws IH]; [constructor|]. cbn [flat_map]. unfold cut_cannot at 1. destruct (list_eq_dec N.eq_dec (map uncapital w0) (lit "cannot")) as [E|E]; cbn [app].
    - rewrite <- (firstn_skipn 3 w0) at 1. constructor; [rewrite firstn_skipn; exact E| |exact IH]. rewrite firstn_length, (is_cannot_len w0 E). reflexivity.
    - constructor; [exact E|exact IH].
  Qed.
  Lemma plain_tokens_fun ws ts ts' : plain_tokens ws ts -> plain_tokens ws ts' -> ts = ts'.
  Proof.
    intros H. revert ts'. induction H as [|w0 ws ts Hn H IH|can not ws ts Hc Hl H IH]; intros ts' H'; inversion H' as [|w1 ws1 ts1 Hn1 H1|can1 not1 ws1 ts1 Hc1 Hl1 H1]; subst; auto.
    - f_equal. auto.
    - contradiction.
    - contradiction.
    - apply app_inj_len in H0; [|congruence]. destruct H0 as [-> ->]. f_equal. f_equal. auto.
  Qed.
  Lemma cut_cannot_no ws : (forall w0, In w0 ws -> ~ is_cannot w0) -> flat_map cut_cannot ws = ws.
  Proof.
    induction ws as [|w0 ws IH]; intros H; [reflexivity|]. cbn [flat_map]. rewrite IH by (intros v Hv; apply H; right; exact Hv). unfold cut_cannot. destruct (list_eq_dec N.eq_dec _ _) as [E|E]; [|reflexivity]. exfalso. exact (H w0 (or_introl eq_refl) E).
  Qed.
  Lemma words_asc w0 t : Forall asc t -> In w0 (words t) -> Forall asc w0.
  Proof. intros Ht Hw. apply Forall_forall. intros c Hc. rewrite Forall_forall in Ht. apply Ht. eapply words_in; eauto. Qed.
  Lemma cannot_scan b a ps tl : scan U true cannot_re b a ps tl -> (forall c b', b = c :: b' -> asc c) -> Forall asc a ->
    ((b = [] \/ exists c b', b = c :: b' /\ u_space U c = true) \/ (forall c a', a = c :: a' -> u_space U c = true)) ->
    words (subst_of [g 1; tl_ " "; g 2] ps tl) = flat_map cut_cannot (words a) /\
    ((forall c a', a = c :: a' -> u_space U c = true) -> forall c s', subst_of [g 1; tl_ " "; g 2] ps tl = c :: s' -> u_space U c = true).
  Proof.
    intros S. induction S as [b a Hn|b pre w0 y st ps tl Hpre Hm Hw0 Lw Hay Hbst S IH]; intros Hb Ha HS.
    - unfold subst_of. cbn [flat_map app]. split; [|auto]. symmetry. apply cut_cannot_no. intros w0 Hw C. pose proof (words_asc _ _ Ha Hw) as Aw. destruct (words_split _ _ Hw) as (x & z & -> & Hx & Hz).
      specialize (Hn x (w0 ++ z) eq_refl). revert Hn. apply cannot_found; auto. destruct (rev x) as [|c x'] eqn:E; cbn [app].
      + assert (x = []) by (destruct x as [|d x _] using rev_ind; [reflexivity|rewrite rev_app_distr in E; discriminate E]). subst x. destruct HS as [HS|HS]; [exact HS|]. exfalso. destruct w0 as [|d w0]; [discriminate C|].
        specialize (HS d _ eq_refl). pose proof (split_ws_words (u_space U) ([] ++ (d :: w0) ++ z)) as F. rewrite Forall_forall in F. destruct (F _ Hw) as [_ F2]. inversion F2. congruence.
      + right. exists c, (x' ++ b). split; [reflexivity|]. apply (Hx (rev x')). apply rev_last. exact E.
    - rewrite !Forall_app in Ha. destruct Ha as (A1 & A2 & A3).
      assert (Hb2 : forall c b', rev pre ++ b = c :: b' -> asc c).
      { intros c b' E. destruct (rev pre) as [|d p] eqn:Ep; [exact (Hb c b' E)|]. injection E as -> _. apply rev_last in Ep. rewrite Forall_forall in A1. apply A1. rewrite Ep, in_app_iff. right. left. reflexivity. }
      assert (A23 : Forall asc (w0 ++ y)) by (apply Forall_app; auto).
      destruct (cannot_match _ _ _ Hb2 A23 Hm) as (can & not & y2 & Ea & C & Lc & G1 & G2 & Ay & Hs1 & Hs2). assert (E9 : y2 = y) by congruence. rewrite E9 in *. clear E9. apply app_inv_tail in Ea. subst w0.
      assert (Hb3 : forall c b', rev (can ++ not) ++ rev pre ++ b = c :: b' -> asc c).
      { intros c b' E. destruct (rev (can ++ not)) as [|d p] eqn:Ep; [exact (Hb2 c b' E)|]. injection E as -> _. apply rev_last in Ep. rewrite Forall_forall in A2. apply A2. rewrite Ep, in_app_iff. right. left. reflexivity. }
      destruct (IH Hb3 A3 (or_intror Hs2)) as [IHw IHs].
      assert (Hpre_end : forall x' c, pre = x' ++ [c] -> u_space U c = true).
      { intros x' c ->. rewrite rev_app_distr in Hs1. cbn [rev app] in Hs1. destruct Hs1 as [Hs1|(d & b' & E & Hd)]; [discriminate|]. injection E as <- _. exact Hd. }
      assert (NS : forall c, In c (can ++ not) -> u_space U c = false).
      { intros c Hc. rewrite Forall_forall in A2. assert (alnum c) as An. { apply asc_lower; [|apply A2; exact Hc]. apply (in_map uncapital) in Hc. unfold is_cannot in C. rewrite C in Hc. cbn in Hc. repeat destruct Hc as [<-|Hc]; try lia; destruct Hc. }
        destruct (u_space U c) eqn:E; [|reflexivity]. apply (ok_space_word _ OK) in E. rewrite alnum_word in E by exact An. discriminate. }
      assert (Lall : length (can ++ not) = 6) by (apply is_cannot_len; exact C).
      assert (Hcan : can <> []) by (intros ->; discriminate Lc).
      assert (Hnot : not <> []) by (intros ->; rewrite app_nil_r in Lall; congruence).
      split.
      + unfold subst_of in *. cbn [flat_map fst snd]. unfold expand at 1. cbn [flat_map]. change (match g 1 with TLit s => s | TGrp 0 => can ++ not | TGrp n => Regex.group st n end) with (Regex.group st 1).
        unfold g, tl_. cbn [app]. rewrite G1, G2, app_nil_r. rewrite <- !app_assoc. rewrite words_app_l by exact Hpre_end. rewrite (words_app_l pre) by exact Hpre_end. rewrite flat_map_app. f_equal.
        * symmetry. apply cut_cannot_no. intros v Hv Cv. pose proof (words_asc _ _ A1 Hv) as Av. destruct (words_split _ _ Hv) as (x & z & Ep & Hx & Hz). subst pre.
          assert (v <> []) by (intros ->; discriminate Cv).
          specialize (Hpre x (v ++ z) eq_refl ltac:(destruct v; [congruence|discriminate])). rewrite <- app_assoc in Hpre. revert Hpre. apply cannot_found; auto.
          -- destruct (rev x) as [|c x'] eqn:E; cbn [app].
             ++ assert (x = []) by (destruct x as [|d x _] using rev_ind; [reflexivity|rewrite rev_app_distr in E; discriminate E]). subst x. destruct HS as [HS|HS]; [exact HS|]. exfalso. destruct v as [|d v]; [discriminate Cv|].
                specialize (HS d _ eq_refl). pose proof (split_ws_words (u_space U) ([] ++ (d :: v) ++ z)) as F. rewrite Forall_forall in F. destruct (F _ Hv) as [_ F2]. inversion F2. congruence.
             ++ right. exists c, (x' ++ b). split; [reflexivity|]. apply (Hx (rev x')). apply rev_last. exact E.
          -- intros c y' Ey. destruct z as [|d z]; [|injection Ey as <- _; eapply Hz; reflexivity]. exfalso. rewrite app_nil_r in *. destruct v as [|d v _] using rev_ind; [congruence|]. specialize (Hpre_end (x ++ v) d (app_assoc _ _ _)).
             pose proof (split_ws_words (u_space U) (x ++ v ++ [d])) as F. rewrite Forall_forall in F. destruct (F _ Hv) as [_ F2]. rewrite Forall_app in F2. destruct F2 as [_ F2]. inversion F2. congruence.
        * change (can ++ lit " " ++ not ++ ?r) with (can ++ 32%N :: not ++ r).
          change (can ++ lit " " ++ not ++ flat_map (fun p => fst p ++ expand [TGrp 1; TLit (lit " "); TGrp 2] (fst (snd p)) (snd (snd p))) ps ++ tl)
            with (can ++ 32%N :: not ++ subst_of [g 1; tl_ " "; g 2] ps tl).
          rewrite split_ws_word_space; [|exact Hcan|apply Forall_forall; intros c Hc; apply NS; rewrite in_app_iff; auto|exact space32].
          rewrite words_app_r by (apply IHs; exact Hs2). rewrite (app_assoc can not y), (words_app_r (can ++ not)) by exact Hs2. rewrite flat_map_app, <- IHw.
          rewrite split_ws_word; [|exact Hnot|apply Forall_forall; intros c Hc; apply NS; rewrite in_app_iff; auto].
          rewrite (split_ws_word _ (can ++ not)); [|intros E; rewrite E in Lall; discriminate|apply Forall_forall; exact NS].
          cbn [flat_map]. unfold cut_cannot at 1. destruct (list_eq_dec N.eq_dec (map uncapital (can ++ not)) (lit "cannot")) as [_|Nc]; [|exfalso; exact (Nc C)].
          rewrite <- Lc. rewrite firstn_app, Nat.sub_diag, firstn_all, skipn_app, Nat.sub_diag, skipn_all. cbn [firstn skipn app]. rewrite app_nil_r. reflexivity.
      + intros HA c s'. unfold subst_of. cbn [flat_map fst snd]. rewrite <- !app_assoc. destruct pre as [|d pre].
        * exfalso. destruct can as [|d can]; [congruence|]. specialize (HA d _ eq_refl). rewrite (NS d (or_introl eq_refl)) in HA. discriminate.
        * intros E. injection E as <- _. eapply HA. reflexivity.
  Qed.

  (** *** the whole tokenizer on plain words *)
  Lemma sym_asc c : In c symbols -> ~ asc c.
  Proof. cbn. intros H [A|E]; unfold alnum in *; repeat destruct H as [<-|H]; try lia; destruct H. Qed.
  Lemma symbols_space c : In c symbols -> u_space U c = false.
  Proof.
    intros Hc. assert (F : forallb (fun c => if (c <? 128)%N then negb (ascii_space c) else existsb (N.eqb c) code_symbols) symbols = true) by reflexivity.
    rewrite forallb_forall in F. specialize (F c Hc). cbn beta in F. destruct (c <? 128)%N eqn:E.
    - apply N.ltb_lt in E. rewrite (ok_space _ OK) by exact E. apply negb_true_iff. exact F.
    - apply mem_in in F. apply (ok_symbols_space _ OK). exact F.
  Qed.
  Lemma asc_sub r t ic s : mustb symbols r = true -> Forall asc s -> sub U ic r t s = s.
  Proof. intros Hm Hs. apply (sub_must U OK ic symbols); [reflexivity|exact Hm|]. intros c Hc Hi. rewrite Forall_forall in Hs. exact (sym_asc c Hi (Hs c Hc)). Qed.
  Lemma asc_rules rules s : forallb (fun ru => mustb symbols (r_pat ru)) rules = true -> Forall asc s -> fold_left (apply_rule U) rules s = s.
  Proof.
    intros H Hs. induction rules as [|ru rules IH]; [reflexivity|]. cbn [forallb] in H. apply andb_true_iff in H. destruct H as [H1 H2]. cbn [fold_left]. unfold apply_rule at 2. rewrite asc_sub by assumption. apply IH. exact H2.
  Qed.
  Lemma plain_rules rules s : forallb (fun ru => mustb symbols (r_pat ru)) rules = true -> (forall c, In c s -> ~ In c symbols) -> fold_left (apply_rule U) rules s = s.
  Proof.
    intros H Hs. induction rules as [|ru rules IH]; [reflexivity|]. cbn [forallb] in H. apply andb_true_iff in H. destruct H as [H1 H2]. cbn [fold_left]. unfold apply_rule at 2. rewrite (sub_must U OK _ symbols) by (auto; reflexivity). apply IH. exact H2.
  Qed.
  Lemma asc_search r s : mustb symbols r = true -> Forall asc s -> search U true r s = None.
  Proof.
    intros Hm Hs. apply search_none. intros x y ->. apply (no_must_match U OK true symbols); [reflexivity|exact Hm|]. intros c Hc Hi. rewrite Forall_forall in Hs. apply (sym_asc c Hi). apply Hs. rewrite in_app_iff. auto.
  Qed.
  Lemma asc_protect s : Forall asc s -> protect_text U s = Ok ([], s).
  Proof.
    intros Hs. assert (P : forall f r prot i, mustb symbols r = true -> protect_loop U f r prot i s = Ok (prot, i, s)) by (intros f r prot i Hm; destruct f; cbn [protect_loop]; rewrite asc_search by assumption; reflexivity).
    unfold protect_text, re_protect. cbn [foldM]. rewrite !P by reflexivity. cbn [rbind]. rewrite !P by reflexivity. cbn [rbind]. rewrite !P by reflexivity. cbn [rbind]. rewrite !P by reflexivity. cbn [rbind]. rewrite !P by reflexivity. reflexivity.
  Qed.
  Lemma asc_join ws : Forall (Forall asc) ws -> Forall asc (join [32%N] ws).
  Proof. intros H. apply Forall_forall. intros c Hc. apply join_in in Hc. destruct Hc as [->|(w0 & Hw & Hc)]; [right; reflexivity|]. rewrite Forall_forall in H. specialize (H w0 Hw). rewrite Forall_forall in H. auto. Qed.
  Lemma fold_first {A B} (f : A -> B -> A) l b a : l = b :: List.tl l -> fold_left f l a = fold_left f (List.tl l) (f a b).
  Proof. destruct l as [|b0 l]; [discriminate|]. intros E. injection E as ->. reflexivity. Qed.
  Lemma segment_first t : fold_left (apply_rule U) re_segment_off t = fold_left (apply_rule U) (List.tl re_segment_off) (sub U true cannot_re [g 1; tl_ " "; g 2] t).
  Proof.
    exact (fold_first (apply_rule U) re_segment_off (mk cannot_re true [g 1; tl_ " "; g 2]) t eq_refl).
  Qed.
  Theorem tokenize_words text ws : text <> [] -> (forall c, In c text -> alnum c \/ u_space U c = true) -> words_of U text ws -> tokenize U text = Ok (flat_map cut_cannot ws).
  Proof.
    intros Hne Ht Hw. apply words_of_fun in Hw.
    assert (W : Forall (fun t => t <> [] /\ Forall (fun c => u_space U c = false) t) ws) by (rewrite <- Hw; apply split_ws_words).
    assert (A : Forall (Forall asc) ws).
    { apply Forall_forall. intros w0 Hi. apply Forall_forall. intros c Hc. rewrite Forall_forall in W. destruct (W w0 Hi) as [_ W2]. rewrite Forall_forall in W2. specialize (W2 c Hc). left. rewrite <- Hw in Hi. destruct (Ht c (words_in _ _ _ _ Hi Hc)) as [H|H]; [exact H|congruence]. }
    assert (S : sanitize U tk_sanitization text = join [32%N] ws).
    { unfold sanitize. rewrite plain_rules; [|reflexivity|].
      - rewrite words_strip, Hw. reflexivity.
      - intros c Hc Hi. assert (In c text) as Hct.
        { destruct (lstrip_split U text) as (p & E & _). unfold strip in Hc. apply in_rev in Hc. destruct (lstrip_split U (rev (lstrip (u_space U) text))) as (q & E2 & _). assert (In c (rev (lstrip (u_space U) text))) as H by (rewrite E2, in_app_iff; auto). apply in_rev in H. rewrite E, in_app_iff. auto. }
        destruct (Ht c Hct) as [H|H]; [exact (sym_asc c Hi (or_introl H))|]. assert (forallb (fun c => negb (u_space U c)) symbols = true) as F.
        { apply forallb_forall. intros d Hd. rewrite symbols_space by exact Hd. reflexivity. }
        rewrite forallb_forall in F. specialize (F c Hi). rewrite H in F. discriminate. }
    destruct text as [|c0 text]; [congruence|]. unfold tokenize. rewrite S. pose proof (asc_join _ A) as AJ. rewrite (asc_protect _ AJ). cbn [rbind].
    rewrite (asc_rules re_no_split) by (auto; reflexivity). replace (apply_rule U (join [32%N] ws) re_always_split) with (join [32%N] ws) by (symmetry; apply asc_sub; auto; reflexivity).
    rewrite split_ws_join by (auto; exact space32).
    assert (SD : flat_map (split_dots U) ws = ws).
    { clear - W A OK. induction ws as [|w0 ws IH]; [reflexivity|]. inversion W as [|? ? [W1 W2] W3]; inversion A; subst. cbn [flat_map]. rewrite IH by assumption. unfold split_dots. destruct (existsb _ _); [reflexivity|].
      rewrite asc_rules by (auto; reflexivity). rewrite split_ws_word by assumption. reflexivity. }
    rewrite SD. change (lit " ") with [32%N].
    rewrite segment_first.
    destruct (sub_scan U true cannot_re [g 1; tl_ " "; g 2] (join [32%N] ws) eq_refl) as (ps & tl & Sc & E).
    assert (AS : Forall asc (sub U true cannot_re [g 1; tl_ " "; g 2] (join [32%N] ws))) by (apply sub_in; [reflexivity|repeat constructor; right; reflexivity|exact AJ]).
    destruct (cannot_scan _ _ _ _ Sc ltac:(discriminate) AJ (or_introl (or_introl eq_refl))) as [Q _]. rewrite <- E in Q.
    assert (Q2 : split_ws (u_space U) (sub U true cannot_re [g 1; tl_ " "; g 2] (join [32%N] ws)) = flat_map cut_cannot ws) by (etransitivity; [exact Q|f_equal; apply (split_ws_join _ 32%N ws space32 W)]). clear Q. rename Q2 into Q.
    set (t := sub U true cannot_re [g 1; tl_ " "; g 2] (join [32%N] ws)) in *.
    rewrite (asc_rules (List.tl re_segment_off)) by (auto; reflexivity). rewrite Q.
    assert (W2 : Forall (fun t => t <> [] /\ Forall (fun c => u_space U c = false) t) (flat_map cut_cannot ws)) by (rewrite <- Q; apply split_ws_words).
    assert (A2 : Forall asc (join [32%N] (flat_map cut_cannot ws))).
    { rewrite <- Q. apply asc_join. apply Forall_forall. intros w0 Hi. apply (words_asc _ _ AS Hi). }
    rewrite (asc_rules re_restore) by (auto; reflexivity). rewrite (asc_rules re_reattach) by (auto; reflexivity). cbn [fold_left]. rewrite split_ws_join by (auto; exact space32). reflexivity.
  Qed.
End Words.
