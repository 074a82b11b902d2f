(** Proofs about the tokenizer: required symbols, termination, plain words. *)
From Coq Require Import Ascii String.
From Coq Require Import List NArith ZArith Arith Bool Lia.
From Verif Require Import PyBase Regex MTokenizer SText LBase LText LRegex LSub LSentencizer.
Import ListNotations.
Local Open Scope nat_scope.

(** ** symbols a match must contain *)
Definition caseless (c : char) : bool := ((c <? 128)%N && negb (is_letter c)) || existsb (N.eqb c) code_symbols.
Definition must_items (l : list char) (items : list citem) : bool :=
  forallb (fun i => match i with CRange a b => N.eqb a b && existsb (N.eqb a) l | _ => false end) items.
Fixpoint mustb (l : list char) (r : re) : bool :=
  match r with
  | Chr cs => negb (cs_neg cs) && must_items l (cs_items cs)
  | Seq a b => mustb l a || mustb l b
  | Alt a b => mustb l a && mustb l b
  | Grp _ r => mustb l r
  | _ => false
  end.
Lemma mem_in c l : existsb (N.eqb c) l = true <-> In c l.
Proof. rewrite existsb_exists. split; [intros (d & Hd & E); apply N.eqb_eq in E; subst; exact Hd|intros H; exists c; split; [exact H|apply N.eqb_refl]]. Qed.
Section Must.
  Context (U : udb) (OK : udb_ok U) (ic : bool).
  Lemma caseless_range c d : caseless c = true -> citem_match U ic d (CRange c c) = true -> d = c.
  Proof.
    intros Hc. unfold citem_match. rewrite existsb_exists. intros (e & He & E). apply andb_true_iff in E. rewrite !N.leb_le in E. assert (e = c) by lia. subst e.
    destruct ic; [|destruct He as [->|[]]; reflexivity]. unfold caseless in Hc. apply orb_true_iff in Hc. destruct Hc as [Hc|Hc].
    - apply andb_true_iff in Hc. rewrite N.ltb_lt, negb_true_iff in Hc. destruct Hc as [Hc Hl]. destruct (ok_var_ascii _ OK d c He Hc) as [->|Hx]; [reflexivity|congruence].
    - apply mem_in in Hc. apply (ok_symbols _ OK c d Hc). auto.
  Qed.
  Lemma must_cset l cs d : forallb caseless l = true -> negb (cs_neg cs) && must_items l (cs_items cs) = true -> cset_match U ic cs d = true -> In d l.
  Proof.
    intros Hl Hm H. apply andb_true_iff in Hm. destruct Hm as [Hn Hm]. apply negb_true_iff in Hn. unfold cset_match in H. rewrite Hn, xorb_false_l in H. apply existsb_exists in H. destruct H as (i & Hi & H).
    unfold must_items in Hm. rewrite forallb_forall in Hm. specialize (Hm i Hi). destruct i as [a b| | |]; try discriminate. apply andb_true_iff in Hm. destruct Hm as [E Hm]. apply N.eqb_eq in E. subst b. apply mem_in in Hm.
    rewrite forallb_forall in Hl. apply caseless_range in H; [subst; exact Hm|auto].
  Qed.
  Lemma must_lang l : forallb caseless l = true -> forall r x, mustb l r = true -> lang U ic r x -> exists c, In c x /\ In c l.
  Proof.
    intros Hl. induction r as [|cs|a IHa b IHb|a IHa b IHb|g r IH|n r IH|pos r IH|pos cl|pos| |]; intros x Hm H; cbn [mustb lang] in *; try discriminate.
    - destruct H as (d & -> & Hd). exists d. split; [left; reflexivity|]. eapply must_cset; eauto.
    - destruct H as (y & z & -> & Ha & Hb). apply orb_true_iff in Hm. destruct Hm as [Hm|Hm]; [destruct (IHa _ Hm Ha) as (c & Hc & Hi)|destruct (IHb _ Hm Hb) as (c & Hc & Hi)]; exists c; rewrite in_app_iff; auto.
    - apply andb_true_iff in Hm. destruct Hm as [Hm1 Hm2]. destruct H as [H|H]; eauto.
    - eauto.
  Qed.
  Lemma no_must_match l r b a : forallb caseless l = true -> mustb l r = true -> (forall c, In c a -> ~ In c l) -> match_at U ic r b a = None.
  Proof.
    intros Hl Hm Ha. destruct (match_at U ic r b a) as [st|] eqn:E; [|reflexivity]. exfalso. apply match_at_some in E. apply mrel_lang in E. destruct E as (x & Ex & _ & L). cbn [aft] in Ex.
    destruct (must_lang l Hl r x Hm L) as (c & Hc & Hi). apply (Ha c); [rewrite Ex, in_app_iff; auto|exact Hi].
  Qed.
  Lemma must_nullable l r : mustb l r = true -> nullable r = false.
  Proof.
    induction r as [|cs|a IHa b IHb|a IHa b IHb|g r IH|n r IH|pos r IH|pos cl|pos| |]; cbn; intros H; try discriminate; auto.
    - apply orb_true_iff in H. destruct H as [H|H]; [rewrite IHa by exact H; reflexivity|rewrite IHb by exact H; apply andb_false_r].
    - apply andb_true_iff in H. destruct H as [H1 H2]. rewrite IHa, IHb by assumption. reflexivity.
  Qed.
  Lemma sub_must l r t s : forallb caseless l = true -> mustb l r = true -> (forall c, In c s -> ~ In c l) -> sub U ic r t s = s.
  Proof.
    intros Hl Hm Hs. apply sub_none; [eapply must_nullable; eauto|]. intros x y ->. apply (no_must_match l); auto. intros c Hc. apply Hs. rewrite in_app_iff. auto.
  Qed.
  Lemma search_from_some r a b b' st : search_from U ic r b a = Some (b', st) -> exists x y, a = x ++ y /\ b' = rev x ++ b /\ match_at U ic r b' y = Some st.
  Proof.
    revert b. induction a as [|c a IH]; intros b H; cbn [search_from] in H; destruct (match_at U ic r b _) as [st1|] eqn:E.
    - injection H as <- <-. exists [], []. auto.
    - discriminate.
    - injection H as <- <-. exists [], (c :: a). auto.
    - destruct (IH _ H) as (x & y & -> & -> & M). exists (c :: x), y. cbn [app rev]. rewrite <- app_assoc. auto.
  Qed.
  Lemma search_none r a b : (forall x y, a = x ++ y -> match_at U ic r (rev x ++ b) y = None) -> search_from U ic r b a = None.
  Proof.
    revert b. induction a as [|c a IH]; intros b H; cbn [search_from]; pose proof (H [] _ eq_refl) as E; cbn [rev app] in E; rewrite E; [reflexivity|]. apply IH. intros x y ->. specialize (H (c :: x) y eq_refl). cbn [rev] in H. rewrite <- app_assoc in H. exact H.
  Qed.
  Lemma search_some r s b st : search U ic r s = Some (b, st) -> exists x y, s = x ++ matched b st ++ y /\ b = rev x /\ lang U ic r (matched b st) /\ aft st = y /\ match_at U ic r b (matched b st ++ y) = Some st.
  Proof.
    intros H. apply search_from_some in H. destruct H as (x & y & -> & -> & M). rewrite app_nil_r in *. pose proof M as M0. apply match_at_some in M. apply mrel_lang in M. destruct M as (w & Ew & Eb & L). cbn [aft bef] in *. subst y.
    rewrite (matched_eq _ _ _ Eb). exists x, (aft st). auto.
  Qed.
End Must.

(** ** inversion of matches *)
Section Inv.
  Context (U : udb) (ic : bool).
  Notation mrel := (mrel U ic).
  Lemma seq_inv a b st st' : mrel (Seq a b) st st' -> exists st1, mrel a st st1 /\ mrel b st1 st'.
  Proof. inversion 1; subst; eauto. Qed.
  Lemma grp_inv n r st st' : mrel (Grp n r) st st' -> exists st1, mrel r st st1 /\ st' = {| bef := bef st1; aft := aft st1; caps := (n, consumed st st1) :: caps st1 |}.
  Proof. inversion 1; subst; eauto. Qed.
  Lemma bound_inv pos st st' : mrel (Bound pos) st st' -> st' = st /\ at_word_boundary U (bef st) (aft st) = pos.
  Proof. inversion 1; subst. split; [reflexivity|]. symmetry. apply eqb_prop. assumption. Qed.
  Lemma alt_inv a b st st' : mrel (Alt a b) st st' -> mrel a st st' \/ mrel b st st'.
  Proof. inversion 1; subst; auto. Qed.
  Lemma chr_inv cs st st' : mrel (Chr cs) st st' -> exists c, aft st = c :: aft st' /\ bef st' = c :: bef st /\ caps st' = caps st /\ cset_match U ic cs c = true.
  Proof. inversion 1; subst. eexists. cbn. eauto. Qed.
  Lemma word_caps s : forall st st', mrel (word s) st st' -> caps st' = caps st.
  Proof.
    induction s as [|c s IH]; intros st st' H; [inversion H; reflexivity|]. destruct s as [|d s].
    - apply chr_inv in H. destruct H as (e & _ & _ & E & _). exact E.
    - change (word (c :: d :: s)) with (Seq (ch c) (word (d :: s))) in H. apply seq_inv in H. destruct H as (s1 & H1 & H2). apply chr_inv in H1. destruct H1 as (e & _ & _ & E & _). rewrite (IH _ _ H2). exact E.
  Qed.
End Inv.

(** ** replace *)
Lemma strip_prefix_some p s rest : strip_prefix p s = Some rest <-> s = p ++ rest.
Proof.
  revert s. induction p as [|c p IH]; intros s; cbn [strip_prefix app].
  - split; [intros E; injection E as ->; reflexivity|intros ->; reflexivity].
  - destruct s as [|d s]; [split; discriminate|]. destruct (N.eqb_spec c d).
    + subst. rewrite IH. split; [intros ->; reflexivity|intros E; injection E as ->; reflexivity].
    + split; [discriminate|intros E; injection E as -> _; congruence].
Qed.
Lemma strip_prefix_none p s : strip_prefix p s = None <-> forall rest, s <> p ++ rest.
Proof.
  destruct (strip_prefix p s) as [r|] eqn:E; split; intros H; try discriminate; auto.
  - apply strip_prefix_some in E. exfalso. exact (H r E).
  - intros rest Er. apply strip_prefix_some in Er. congruence.
Qed.
(** the result of replacing the occurrences of a non-empty string from left to right *)
Inductive replaced (old new : str) : str -> str -> Prop :=
| repl_end s : (forall x y, s <> x ++ old ++ y) -> replaced old new s s
| repl_one pre y t : (forall x z rest, pre = x ++ z -> z <> [] -> z ++ old ++ y <> old ++ rest) -> replaced old new y t -> replaced old new (pre ++ old ++ y) (pre ++ new ++ t).
Lemma replaced_cons old new c s t : replaced old new s t -> (forall rest, c :: s <> old ++ rest) -> replaced old new (c :: s) (c :: t).
Proof.
  intros H Hc. destruct H as [s Hn|pre y t Hp H].
  - apply repl_end. intros [|d x] y E; [exact (Hc y E)|]. injection E as -> E. exact (Hn x y E).
  - apply (repl_one old new (c :: pre) y t); [|exact H]. intros [|d x] z rest E Hz.
    + cbn in E. subst z. intros E. exact (Hc rest E).
    + injection E as -> E. exact (Hp x z rest E Hz).
Qed.
Lemma replace_fuel_replaced old new : old <> [] -> forall fuel s, length s <= fuel -> replaced old new s (replace_fuel fuel old new s).
Proof.
  intros Ho. induction fuel as [|f IH]; intros s Hs; cbn [replace_fuel].
  - destruct s; [|cbn in Hs; lia]. apply repl_end. intros x y E. symmetry in E. apply app_eq_nil in E. destruct E as [_ E]. apply app_eq_nil in E. tauto.
  - destruct s as [|c s]; [apply repl_end; intros x y E; symmetry in E; apply app_eq_nil in E; destruct E as [_ E]; apply app_eq_nil in E; tauto|].
    destruct (strip_prefix old (c :: s)) as [rest|] eqn:E.
    + apply strip_prefix_some in E. rewrite E. apply (repl_one old new [] rest); [intros x z r Ex Hz; symmetry in Ex; apply app_eq_nil in Ex; tauto|]. apply IH. apply (f_equal (@length N)) in E. rewrite app_length in E. destruct old; [congruence|]. cbn [length] in *. lia.
    + apply replaced_cons; [apply IH; cbn in Hs; lia|]. apply strip_prefix_none. exact E.
Qed.
Lemma replace_replaced old new s : old <> [] -> replaced old new s (replace s old new).
Proof. intros H. apply replace_fuel_replaced; [exact H|]. unfold replace. lia. Qed.

Lemma ok_inj {A} (a b : A) : Ok a = Ok b -> a = b.
Proof. intros E. injection E as ->. reflexivity. Qed.
(** ** termination of the protection loop *)
Definition countb (p : char -> bool) (s : str) : nat := length (filter p s).
Lemma countb_app p a b : countb p (a ++ b) = countb p a + countb p b.
Proof. unfold countb. rewrite filter_app, app_length. reflexivity. Qed.
Lemma replaced_count p old new s t : replaced old new s t -> countb p new = 0 -> countb p t <= countb p s.
Proof. induction 1 as [|pre y t Hp H IH]; intros Hn; [lia|]. rewrite !countb_app. specialize (IH Hn). lia. Qed.
Lemma replaced_count_lt p old new s t : replaced old new s t -> countb p new = 0 -> 0 < countb p old -> (exists x y, s = x ++ old ++ y) -> countb p t < countb p s.
Proof.
  intros H Hn Ho (x & y & E). destruct H as [s Hs|pre z t Hp H]; [exfalso; exact (Hs x y E)|]. rewrite !countb_app. pose proof (replaced_count p _ _ _ _ H Hn). lia.
Qed.
Lemma countb_len p s : countb p s <= length s.
Proof. unfold countb. induction s as [|c s IH]; cbn; [lia|]. destruct (p c); cbn; lia. Qed.
Lemma countb_pos p s c : In c s -> p c = true -> 0 < countb p s.
Proof. intros Hi Hp. unfold countb. assert (In c (filter p s)) as H by (apply filter_In; auto). destruct (filter p s); [destruct H|cbn; lia]. Qed.
Lemma countb_zero p s : (forall c, In c s -> p c = false) -> countb p s = 0.
Proof. intros H. unfold countb. induction s as [|c s IH]; [reflexivity|]. cbn. rewrite (H c) by (left; reflexivity). apply IH. intros d Hd. apply H. right. exact Hd. Qed.
Lemma key_chars n c : In c (protect_key n) -> (48 <= c <= 57)%N \/ In c (lit "_PROTECTED_").
Proof.
  unfold protect_key. rewrite !in_app_iff. intros [H|[H|H]]; [auto| |].
  - left. pose proof (str_of_nat_digits n) as F. rewrite Forall_forall in F. auto.
  - right. cbn in H. destruct H as [<-|[]]. cbn. auto.
Qed.
Section Protect.
  Context (U : udb) (OK : udb_ok U).
  Lemma protect_loop_ok l r : forallb caseless l = true -> mustb l r = true -> (forall n c, In c l -> ~ In c (protect_key n)) ->
    forall fuel prot index text, countb (fun c => existsb (N.eqb c) l) text <= fuel -> exists res, protect_loop U fuel r prot index text = Ok res.
  Proof.
    intros Hl Hm Hk. induction fuel as [|f IH]; intros prot index text Hf; cbn [protect_loop]; destruct (search U true r text) as [[b st]|] eqn:E; eauto.
    - exfalso. apply search_some in E. destruct E as (x & y & -> & _ & L & _). destruct (must_lang U OK true l Hl _ _ Hm L) as (c & Hc & Hi).
      rewrite !countb_app in Hf. pose proof (countb_pos (fun c => existsb (N.eqb c) l) _ _ Hc (proj2 (mem_in c l) Hi)). lia.
    - apply IH. apply search_some in E. destruct E as (x & y & E & _ & L & _). destruct (must_lang U OK true l Hl _ _ Hm L) as (c & Hc & Hi).
      assert (matched b st <> []) as Hne by (intros F; rewrite F in Hc; destruct Hc).
      pose proof (replaced_count_lt (fun c => existsb (N.eqb c) l) _ _ _ _ (replace_replaced (matched b st) (protect_key index) text Hne)) as H.
      assert (K : countb (fun c => existsb (N.eqb c) l) (protect_key index) = 0).
      { apply countb_zero. intros d Hd. destruct (existsb (N.eqb d) l) eqn:Ed; [|reflexivity]. apply mem_in in Ed. exfalso. exact (Hk index d Ed Hd). }
      specialize (H K (countb_pos _ _ _ Hc (proj2 (mem_in c l) Hi)) (ex_intro _ x (ex_intro _ y E))). lia.
  Qed.
  Lemma protect_text_ok text : exists res, protect_text U text = Ok res.
  Proof.
    assert (K : forall l n c, forallb (fun c => negb ((48 <=? c) && (c <=? 57))%N && negb (existsb (N.eqb c) (lit "_PROTECTED_"))) l = true -> In c l -> ~ In c (protect_key n)).
    { intros l n c Hl Hc Hk. rewrite forallb_forall in Hl. specialize (Hl c Hc). apply andb_true_iff in Hl. rewrite !negb_true_iff in Hl. destruct Hl as [H1 H2]. apply key_chars in Hk. destruct Hk as [Hk|Hk].
      - apply andb_false_iff in H1. rewrite !N.leb_gt in H1. lia.
      - apply mem_in in Hk. congruence. }
    assert (STEP : forall l r prot index t, forallb caseless l = true -> mustb l r = true -> forallb (fun c => negb ((48 <=? c) && (c <=? 57))%N && negb (existsb (N.eqb c) (lit "_PROTECTED_"))) l = true ->
      exists p i t', protect_loop U (length t) r prot index t = Ok (p, i, t')).
    { intros l r prot index t H1 H2 H3. destruct (protect_loop_ok l r H1 H2 (fun n c => K l n c H3) (length t) prot index t (countb_len _ _)) as [[[p i] t'] E]. eauto. }
    unfold protect_text, re_protect. cbn [foldM].
    repeat match goal with |- context [protect_loop U (length ?t) ?r ?p ?i ?t] =>
      first [ destruct (STEP [39]%N r p i t eq_refl eq_refl eq_refl) as (? & ? & ? & ->)
            | destruct (STEP [46]%N r p i t eq_refl eq_refl eq_refl) as (? & ? & ? & ->)
            | destruct (STEP [58; 59]%N r p i t eq_refl eq_refl eq_refl) as (? & ? & ? & ->) ]; cbn [rbind] end.
    eauto.
  Qed.
  Theorem tokenize_ok text : exists tokens, tokenize U text = Ok tokens.
  Proof.
    unfold tokenize. destruct text as [|c text]; [eauto|]. destruct (protect_text_ok (sanitize U tk_sanitization (c :: text))) as [[prot t] ->]. cbn [rbind]. eauto.
  Qed.
End Protect.
