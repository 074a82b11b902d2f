(** The sentences of an ordinary text spell the text. *)
From Coq Require Import Ascii String.
From Coq Require Import List NArith ZArith Arith Bool Lia.
From Verif Require Import PyBase Regex MTokenizer MSentencizer SText STok SKeep LBase LText LRegex LSub LSentencizer LRestore LTok LTokWords LDecode LGood LRule LStages LProtect LTokDec LSanit LTokText LTokEdit LTokSent.
Import ListNotations.
Local Open Scope nat_scope.

Section Keep.
  Context (U : udb) (OK : udb_ok U).
  Notation F := unmarked.
  Notation V := (fun s => visible U (one_dash (map straight s))).
  Notation W := (written U).
  Notation adj := (adjusted U).

  (** *** the content of parts of a text *)
  Lemma F_app a b : F (a ++ b) = F a ++ F b. Proof. apply filter_app. Qed.
  Lemma F_same a : ~ In 182%N a -> F a = a.
  Proof. induction a as [|c a IH]; intros H; [reflexivity|]. unfold unmarked in *. cbn [filter]. destruct (N.eqb_spec c 182); [subst; exfalso; apply H; left; reflexivity|]. cbn [negb]. rewrite IH; [reflexivity|]. intros K. apply H. right. exact K. Qed.
  Lemma dash_straight c : is_dash (straight c) = is_dash c.
  Proof.
    unfold straight. destruct ((c =? 8216) || (c =? 8217) || (c =? 8242))%N eqn:E1.
    - rewrite !orb_true_iff, !N.eqb_eq in E1. destruct E1 as [[->| ->]| ->]; reflexivity.
    - destruct ((c =? 8220) || (c =? 8221) || (c =? 8243))%N eqn:E2; [|reflexivity]. rewrite !orb_true_iff, !N.eqb_eq in E2. destruct E2 as [[->| ->]| ->]; reflexivity.
  Qed.
  Lemma one_dash_app a c b : is_dash c = false -> one_dash (a ++ c :: b) = one_dash a ++ one_dash (c :: b).
  Proof.
    intros Hc. induction a as [|x a IH]; [reflexivity|]. cbn [app]. change (one_dash (x :: a ++ c :: b)) with (if is_dash x then match a ++ c :: b with d :: _ => if is_dash d then one_dash (a ++ c :: b) else 45%N :: one_dash (a ++ c :: b) | [] => [45%N] end else x :: one_dash (a ++ c :: b)).
    change (one_dash (x :: a)) with (if is_dash x then match a with d :: _ => if is_dash d then one_dash a else 45%N :: one_dash a | [] => [45%N] end else x :: one_dash a).
    rewrite IH. destruct (is_dash x); [|reflexivity]. destruct a as [|d a]; cbn [app]; [rewrite Hc; reflexivity|]. destruct (is_dash d); reflexivity.
  Qed.
  Lemma V_app a c b : is_dash c = false -> V (a ++ c :: b) = V a ++ V (c :: b).
  Proof. intros Hc. cbv beta. rewrite map_app. cbn [map]. rewrite one_dash_app by (rewrite dash_straight; exact Hc). apply (visible_app U). Qed.
  Lemma V_cons c b : is_dash c = false -> V (c :: b) = (if u_space U (straight c) then [] else [straight c]) ++ V b.
  Proof. intros Hc. cbv beta. cbn [map one_dash]. rewrite dash_straight, Hc. unfold visible. cbn [filter]. destruct (u_space U (straight c)); reflexivity. Qed.
  Lemma W_app a c b : is_dash c = false -> W (a ++ c :: b) = W a ++ W (c :: b).
  Proof. intros Hc. unfold written. pose proof (V_app a c b Hc) as E. cbv beta in E. rewrite E. apply F_app. Qed.
  Lemma W_cons c b : is_dash c = false -> W (c :: b) = F (if u_space U (straight c) then [] else [straight c]) ++ W b.
  Proof. intros Hc. unfold written. pose proof (V_cons c b Hc) as E. cbv beta in E. rewrite E. apply F_app. Qed.
  Lemma quote_straight c : straight c <> c -> is_dash c = false.
  Proof.
    unfold straight. destruct ((c =? 8216) || (c =? 8217) || (c =? 8242))%N eqn:E1.
    - rewrite !orb_true_iff, !N.eqb_eq in E1. destruct E1 as [[->| ->]| ->]; reflexivity.
    - destruct ((c =? 8220) || (c =? 8221) || (c =? 8243))%N eqn:E2; [|congruence]. rewrite !orb_true_iff, !N.eqb_eq in E2. destruct E2 as [[->| ->]| ->]; reflexivity.
  Qed.
  (** whitespace *)
  Lemma curly_space c : straight c <> c -> u_space U c = false.
  Proof.
    intros H. assert (In c [8216; 8217; 8242; 8220; 8221; 8243]%N) as Hi.
    { unfold straight in H. destruct ((c =? 8216) || (c =? 8217) || (c =? 8242))%N eqn:E1; [rewrite !orb_true_iff, !N.eqb_eq in E1; cbn; intuition|]. destruct ((c =? 8220) || (c =? 8221) || (c =? 8243))%N eqn:E2; [|congruence]. rewrite !orb_true_iff, !N.eqb_eq in E2. cbn; intuition. }
    apply (ok_symbols_space _ OK). cbn in *. intuition.
  Qed.
  Lemma straight_space c : u_space U c = true -> straight c = c.
  Proof. intros H. destruct (N.eq_dec (straight c) c) as [E|E]; [exact E|]. rewrite curly_space in H by exact E. discriminate. Qed.
  Lemma space_dash c : u_space U c = true -> is_dash c = false.
  Proof.
    intros H. unfold is_dash. destruct (N.eqb_spec c 8211), (N.eqb_spec c 8212); try reflexivity; subst; rewrite (ok_symbols_space _ OK) in H by (cbn; tauto); discriminate.
  Qed.
  Lemma W_space c b : u_space U c = true -> W (c :: b) = W b.
  Proof. intros H. rewrite W_cons by (apply space_dash; exact H). rewrite straight_space by exact H. rewrite H. reflexivity. Qed.
  Lemma W_spaces s b : (forall c, In c s -> u_space U c = true) -> W (s ++ b) = W b.
  Proof. induction s as [|c s IH]; intros H; [reflexivity|]. cbn [app]. rewrite W_space by (apply H; left; reflexivity). apply IH. intros d Hd. apply H. right. exact Hd. Qed.
  Lemma W_gap a s b : s <> [] -> (forall c, In c s -> u_space U c = true) -> W (a ++ s ++ b) = W a ++ W b.
  Proof.
    intros Hn H. destruct s as [|c s]; [congruence|]. cbn [app]. rewrite W_app by (apply space_dash, H; left; reflexivity). f_equal. rewrite W_space by (apply H; left; reflexivity). apply W_spaces. intros d Hd. apply H. right. exact Hd.
  Qed.
  Lemma W_nil : W [] = []. Proof. reflexivity. Qed.
  Lemma W_words s : W (join [space] (split_ws (u_space U) s)) = W s.
  Proof.
    destruct (words_of_total U s) as (ws & H). rewrite (words_of_fun U s ws H). induction H as [s H|s w rest ws Hs Hn Hw Hr H IH].
    - rewrite <- (app_nil_r s), W_spaces by exact H. reflexivity.
    - rewrite W_spaces by exact Hs. assert (E : W (w ++ rest) = W w ++ W rest).
      { destruct rest as [|c rest]; [rewrite (app_nil_r w); symmetry; apply app_nil_r|]. apply W_app. apply space_dash. apply (Hr c rest eq_refl). }
      rewrite E, <- IH. destruct ws as [|v ws]; [change (join [space] (@nil str)) with (@nil char); change (join [space] [w]) with w; symmetry; apply app_nil_r|]. cbn [join]. rewrite W_gap; [reflexivity|discriminate|]. intros c [<-|[]]. apply (space_is_space U OK).
  Qed.
  Lemma W_dash c s s' : W s = W s' -> (forall x y z t, s = x :: y -> s' = z :: t -> is_dash x = is_dash z) -> (s = [] <-> s' = []) -> W (c :: s) = W (c :: s').
  Proof.
    intros E H HN. destruct (is_dash c) eqn:Hc; [|rewrite !W_cons by exact Hc; rewrite E; reflexivity]. destruct s as [|x s], s' as [|y s']; [reflexivity|pose proof (proj1 HN eq_refl); discriminate|pose proof (proj2 HN eq_refl); discriminate|].
    - specialize (H x s y s' eq_refl eq_refl). unfold written in *. cbn [map one_dash] in *. rewrite !dash_straight in *. rewrite Hc. rewrite <- H in *. destruct (is_dash x).
      + exact E.
      + unfold visible in *. cbn [filter] in *. destruct (negb (u_space U 45%N)); [|exact E]. unfold unmarked in *. cbn [filter]. destruct (negb (45 =? 182)%N); [f_equal|]; exact E.
  Qed.
  Lemma W_collapse s : forall p, W (collapse U p s) = W s.
  Proof.
    induction s as [|c s IH]; intros p; [reflexivity|]. cbn [collapse]. destruct (u_space U c) eqn:Ec.
    - rewrite W_space by exact Ec. destruct p; cbn [app]; [apply IH|]. rewrite W_space by apply (space_is_space U OK). apply IH.
    - apply W_dash; [apply IH| |].
      + intros x y z t E1 E2. destruct s as [|d s]; [discriminate|]. injection E2 as -> ->. cbn [collapse] in E1. destruct (u_space U z) eqn:Ez; injection E1 as <- _; [|reflexivity]. rewrite (space_dash z Ez). reflexivity.
      + destruct s as [|d s]; [tauto|]. cbn [collapse]. destruct (u_space U d); split; discriminate.
  Qed.
  Lemma W_close : forall n s, length s <= n -> W (close_quotes s) = W s.
  Proof.
    induction n as [|n IH]; intros s Hl; [destruct s; [reflexivity|cbn in Hl; lia]|]. destruct s as [|c [|d s]]; [reflexivity|reflexivity|]. destruct (N.eqb c 46 && N.eqb d 34) eqn:E.
    - apply andb_true_iff in E. rewrite !N.eqb_eq in E. destruct E as [-> ->]. change (close_quotes (46%N :: 34%N :: s)) with (46%N :: 34%N :: 182%N :: close_quotes s). rewrite !W_cons by reflexivity. rewrite IH by (cbn in Hl; lia). cbn [straight N.eqb Pos.eqb orb]. rewrite (S182 U OK). reflexivity.
    - rewrite close_cons by (intros s' Es; injection Es as -> -> _; discriminate E). apply W_dash; [apply IH; cbn in *; lia| |].
      + intros x y z t E1 E2. injection E2 as -> ->. destruct t as [|e t]; cbn [close_quotes] in E1; [injection E1 as <- _; reflexivity|]. destruct (N.eqb z 46 && N.eqb e 34) eqn:E3; injection E1 as <- _; [|reflexivity]. apply andb_true_iff in E3. rewrite !N.eqb_eq in E3. destruct E3 as [-> _]. reflexivity.
      + destruct s as [|e s]; cbn [close_quotes]; [split; discriminate|]. destruct (N.eqb d 46 && N.eqb e 34); split; discriminate.
  Qed.
  Lemma W_sanitize b : W (sanitize U sz_sanitization b) = W b.
  Proof. rewrite (sanitize_block U OK), W_words. apply (W_close _ b (le_n _)). Qed.
  Lemma W_blocks text blocks : split_blocks U text blocks -> W text = concat (map W blocks).
  Proof.
    induction 1 as [b H|b s rest bs H1 H2 H3 H4 H5 H IH]; [cbn; rewrite app_nil_r; reflexivity|]. cbn [map concat]. rewrite <- IH. apply W_gap; [|exact H3]. destruct H4 as (c & Hc & _). intros ->. destruct Hc.
  Qed.
  Lemma W_in c s : In c (W s) -> In c (map straight s) \/ c = 45%N.
  Proof.
    unfold written, unmarked, visible. rewrite !filter_In. intros [[H _] _]. induction s as [|x s IH]; [destruct H|]. cbn [map one_dash] in H. destruct (is_dash (straight x)).
    - destruct (map straight s) as [|y l] eqn:E; [destruct H as [<-|[]]; auto|]. destruct (is_dash y); [|destruct H as [<-|H]; [auto|]]; destruct (IH H) as [K|K]; auto; left; cbn [map]; rewrite E; right; exact K.
    - cbn [map]. destruct H as [<-|H]; [left; left; reflexivity|]. destruct (IH H) as [K|K]; auto. left. right. exact K.
  Qed.
  Lemma straight_reserved c : reserved (straight c) -> reserved c.
  Proof.
    unfold straight. destruct ((c =? 8216) || (c =? 8217) || (c =? 8242))%N; [unfold reserved; cbn; intuition discriminate|]. destruct ((c =? 8220) || (c =? 8221) || (c =? 8243))%N; [unfold reserved; cbn; intuition discriminate|]. auto.
  Qed.
  Lemma W_plain s : (forall c, In c s -> ~ reserved c) -> Forall (fun c => ~ reserved c) (W s).
  Proof.
    intros H. apply Forall_forall. intros c Hc Hr. apply W_in in Hc. destruct Hc as [Hc| ->]; [|unfold reserved in Hr; cbn in Hr; intuition discriminate]. apply in_map_iff in Hc. destruct Hc as (d & <- & Hd). exact (H d Hd (straight_reserved d Hr)).
  Qed.

  (** *** marks and what they stand for *)
  Definition mform (a : str) : Prop := exists st en n, reserved st /\ reserved en /\ a = core st en n.
  Inductive ex (m : str -> str -> Prop) : str -> str -> Prop :=
  | ex_nil : ex m [] []
  | ex_ch c s t : ~ reserved c -> ex m s t -> ex m (c :: s) (c :: t)
  | ex_mk a x s t : mform a -> m a x -> ex m s t -> ex m (a ++ s) (x ++ t).
  Lemma ex_app m s1 t1 s2 t2 : ex m s1 t1 -> ex m s2 t2 -> ex m (s1 ++ s2) (t1 ++ t2).
  Proof. induction 1; intros H2; cbn [app]; rewrite <- ?app_assoc; try econstructor; eauto. Qed.
  Lemma ex_plain m s : Forall (fun c => ~ reserved c) s -> ex m s s.
  Proof. induction 1; constructor; auto. Qed.
  Lemma ex_impl (m m' : str -> str -> Prop) s t : (forall a x, m a x -> m' a x) -> ex m s t -> ex m' s t.
  Proof. intros H. induction 1; econstructor; eauto. Qed.
  Lemma mform_head a : mform a -> exists st r, a = st :: r /\ reserved st.
  Proof. intros (st & en & n & H1 & H2 & ->). exists st, (str_of_nat n ++ [en]). auto. Qed.
  Lemma ex_start m w : Forall (fun c => ~ reserved c) w -> forall b u, ex m (w ++ b) u -> exists ub, u = w ++ ub /\ ex m b ub.
  Proof.
    induction 1 as [|c w Hc Hw IH]; intros b u H; [exists u; auto|]. cbn [app] in H. inversion H as [|c' s t Hc' H' E1 E2|a x s t Hf Hm H' E1 E2]; subst.
    - destruct (IH _ _ H') as (ub & -> & K). exists ub. auto.
    - exfalso. destruct (mform_head a Hf) as (st & r & -> & Hs). cbn in E1. injection E1 as -> _. exact (Hc Hs).
  Qed.
  Lemma app_cut {A} (a b c d : list A) : a ++ b = c ++ d -> (exists z, a = c ++ z /\ d = z ++ b) \/ (exists z, z <> [] /\ c = a ++ z /\ b = z ++ d).
  Proof.
    revert c. induction a as [|x a IH]; intros c E; cbn [app] in E.
    - destruct c as [|y c]; [left; exists []; auto|]. right. exists (y :: c). split; [discriminate|auto].
    - destruct c as [|y c]; cbn [app] in E; [left; exists (x :: a); auto|]. injection E as -> E. destruct (IH c E) as [(z & -> & ->)|(z & Hz & -> & ->)]; [left; exists z; auto|right; exists z; auto].
  Qed.
  Lemma core_digit st en n c : In c (core st en n) -> ~ reserved c -> reserved st -> reserved en -> (48 <= c <= 57)%N.
  Proof. intros H H1 H2 H3. apply core_chars in H. destruct H as [->|[->|H]]; tauto. Qed.
  Lemma ex_split m w : Forall (fun c => ~ reserved c) w -> (exists w0 l, w = w0 ++ [l] /\ ~ (48 <= l <= 57)%N) -> forall s u, ex m s u -> forall a b, s = a ++ w ++ b -> exists ua ub, u = ua ++ w ++ ub /\ ex m a ua /\ ex m b ub.
  Proof.
    intros Hw (w0 & l & Ew & Hl) s u H. induction H as [|c s t Hc H IH|k x s t Hf Hm H IH]; intros a b E.
    - destruct a; [|discriminate]. subst w. destruct w0; discriminate.
    - destruct a as [|y a].
      + cbn [app] in E. assert (G : ex m (w ++ b) (c :: t)) by (rewrite <- E; constructor; assumption). destruct (ex_start m w Hw _ _ G) as (ub & -> & K). exists [], ub. repeat split; auto. constructor.
      + cbn [app] in E. injection E as -> E. destruct (IH a b E) as (ua & ub & -> & K1 & K2). exists (y :: ua), ub. repeat split; auto. constructor; assumption.
    - apply app_cut in E. destruct E as [(z & -> & E)|(z & Hz & -> & ->)].
      + assert (z = []) as ->.
        { destruct z as [|z0 z]; [reflexivity|]. exfalso. destruct Hf as (st & en & n & Hst & Hen & Ef).
          apply app_cut in E. destruct E as [(z' & E1 & E)|(z' & Hz' & E1 & E2)].
          - (* the end of the mark is in the word *) rewrite Forall_forall in Hw. apply (Hw en); [|exact Hen]. rewrite E1, in_app_iff. left. assert (exists z1, z0 :: z = z1 ++ [en]) as (z1 & ->); [|rewrite in_app_iff; right; left; reflexivity].
            unfold core in Ef. rewrite app_assoc in Ef. destruct (exists_last (l := z0 :: z) ltac:(discriminate)) as (z1 & e & Ez). rewrite Ez, app_assoc in Ef. apply app_inj_tail in Ef. destruct Ef as [_ ->]. exists z1. exact Ez.
          - (* the word is inside the mark *) assert (In l (a ++ z0 :: z)) as Hi by (rewrite E1, Ew, !in_app_iff; right; left; right; left; reflexivity). apply Hl. apply (core_digit st en n l (eq_ind _ (fun q => In l q) Hi _ Ef)); [|exact Hst|exact Hen]. rewrite Forall_forall in Hw. apply Hw. rewrite Ew, in_app_iff. right. left. reflexivity. }
        cbn [app] in E. subst s. rewrite app_nil_r in *. destruct (IH [] b eq_refl) as (ua & ub & -> & K1 & K2). inversion K1 as [|? ? ? ? ?|k' ? ? ? Hf' ? ? E1]; subst; [|exfalso; destruct (mform_head _ Hf') as (? & ? & -> & _); discriminate].
        exists (x ++ []), ub. rewrite app_nil_r. repeat split; auto. rewrite <- (app_nil_r a), <- (app_nil_r x). constructor; [assumption|assumption|constructor].
      + destruct (IH z b eq_refl) as (ua & ub & -> & K1 & K2). exists (x ++ ua), ub. rewrite <- app_assoc. repeat split; auto. constructor; assumption.
  Qed.
  Lemma digit_plain c : u_digit U c = true \/ c = 44%N \/ c = 46%N -> ~ reserved c /\ c <> 182%N.
  Proof.
    intros H. split; [intros Hr|intros ->].
    - assert (In c code_symbols) as Hi by (unfold reserved in Hr; cbn in *; intuition). pose proof (ok_symbols_digit _ OK c Hi) as E. unfold reserved in Hr. cbn in Hr. destruct H as [H|[->| ->]]; [congruence|intuition discriminate|intuition discriminate].
    - rewrite (ok_symbols_digit _ OK) in H by (cbn; tauto). intuition discriminate.
  Qed.
  Lemma numeral_plain n : numeral U n -> Forall (fun c => ~ reserved c) n /\ F n = n.
  Proof.
    intros (c & m & -> & Hc & Hm). assert (G : forall x, In x (c :: m) -> ~ reserved x /\ x <> 182%N).
    { intros x [<-|Hx]; apply digit_plain; [auto|]. rewrite Forall_forall in Hm. auto. }
    split; [apply Forall_forall; intros x Hx; apply G; exact Hx|]. apply F_same. intros Hi. apply (G _ Hi). reflexivity.
  Qed.
  Lemma adj_app a a' b b' : adj a a' -> adj b b' -> adj (a ++ b) (a' ++ b').
  Proof.
    intros H1 H2. eapply ad_then; [exact (ad_part U [] a a' b H1)|]. cbn [app]. pose proof (ad_part U a' b b' [] H2) as H. rewrite !app_nil_r in H. exact H.
  Qed.
  Lemma adj_F s t : adj s t -> adj (F s) (F t).
  Proof.
    induction 1 as [s|n Hn|n Hn|k|a s t b H IH|s t u H1 IH1 H2 IH2].
    - apply ad_same.
    - rewrite !F_app, (proj2 (numeral_plain n Hn)). apply ad_feet. exact Hn.
    - rewrite !F_app, (proj2 (numeral_plain n Hn)). apply ad_inches. exact Hn.
    - rewrite !F_same; [apply ad_stars|cbn; intuition discriminate|]. intros Hi. apply repeat_spec in Hi. discriminate.
    - rewrite !F_app. apply ad_part. exact IH.
    - eapply ad_then; eauto.
  Qed.
  Lemma ex_edit m w w' a b u : Forall (fun c => ~ reserved c) w -> Forall (fun c => ~ reserved c) w' -> (exists w0 l, w = w0 ++ [l] /\ ~ (48 <= l <= 57)%N) -> adj w w' -> ex m (a ++ w ++ b) u ->
    exists u', ex m (a ++ w' ++ b) u' /\ adj u u'.
  Proof.
    intros H1 H2 H3 HA H. destruct (ex_split m w H1 H3 _ _ H a b eq_refl) as (ua & ub & -> & K1 & K2). exists (ua ++ w' ++ ub). split; [apply ex_app; [exact K1|apply ex_app; [apply ex_plain; exact H2|exact K2]]|]. apply ad_part. exact HA.
  Qed.
  Lemma ex_adjusted m s t : adj s t -> forall a b u, ex m (a ++ s ++ b) u -> exists u', ex m (a ++ t ++ b) u' /\ adj u u'.
  Proof.
    assert (L : forall l : list char, (forall c, In c l -> (c < 3000)%N) -> Forall (fun c => ~ reserved c) l).
    { intros l Hl. apply Forall_forall. intros c Hc Hr. apply Hl in Hc. unfold reserved in Hr. cbn in Hr. destruct Hr as [<-|[<-|[<-|[<-|[]]]]]; lia. }
    induction 1 as [s|n Hn|n Hn|k|a0 s t b0 H IH|s t v H1 IH1 H2 IH2]; intros a b u E.
    - exists u. split; [exact E|apply ad_same].
    - eapply ex_edit; [| | |apply ad_feet; exact Hn|exact E].
      + apply Forall_app. split; [apply numeral_plain; exact Hn|apply L; cbn; intuition (subst; lia)].
      + apply Forall_app. split; [apply numeral_plain; exact Hn|apply L; cbn; intuition (subst; lia)].
      + exists n, 39%N. split; [reflexivity|lia].
    - eapply ex_edit; [| | |apply ad_inches; exact Hn|exact E].
      + apply Forall_app. split; [apply numeral_plain; exact Hn|apply L; cbn; intuition (subst; lia)].
      + apply Forall_app. split; [apply numeral_plain; exact Hn|apply L; cbn; intuition (subst; lia)].
      + exists n, 34%N. split; [reflexivity|lia].
    - eapply ex_edit; [| | |apply ad_stars|exact E].
      + apply L. intros c Hc. apply repeat_spec in Hc. subst. lia.
      + apply L. cbn. intuition (subst; lia).
      + exists (repeat 42%N k), 42%N. split; [apply repeat_cons|lia].
    - replace (a ++ (a0 ++ s ++ b0) ++ b) with ((a ++ a0) ++ s ++ (b0 ++ b)) in E by (rewrite <- !app_assoc; reflexivity). destruct (IH _ _ _ E) as (u' & K1 & K2). exists u'. split; [|exact K2]. replace (a ++ (a0 ++ t ++ b0) ++ b) with ((a ++ a0) ++ t ++ (b0 ++ b)) by (rewrite <- !app_assoc; reflexivity). exact K1.
    - destruct (IH1 _ _ _ E) as (u1 & K1 & A1). destruct (IH2 _ _ _ K1) as (u2 & K2 & A2). exists u2. split; [exact K2|]. eapply ad_then; eauto.
  Qed.
  Lemma mform_F a : mform a -> F a = a.
  Proof. intros (st & en & n & H1 & H2 & ->). apply F_same. intros Hi. apply core_chars in Hi. unfold reserved in *. cbn in H1, H2. destruct Hi as [<-|[<-|Hi]]; [intuition discriminate|intuition discriminate|lia]. Qed.
  Lemma ex_F (m : str -> str -> Prop) s t : ex m s t -> ex (fun a y => exists x, m a x /\ y = F x) (F s) (F t).
  Proof.
    induction 1 as [|c s t Hc H IH|a x s t Hf Hm H IH]; [constructor| |].
    - unfold unmarked in *. cbn [filter]. destruct (negb (N.eqb c 182)); [constructor; assumption|exact IH].
    - rewrite !F_app, (mform_F a Hf). constructor; [exact Hf|exists x; auto|exact IH].
  Qed.
  Lemma ex_change (m m' : str -> str -> Prop) s t : ex m s t -> (forall a x, m a x -> exists y, m' a y /\ adj x y) -> exists t', ex m' s t' /\ adj t t'.
  Proof.
    intros H HM. induction H as [|c s t Hc H IH|a x s t Hf Hm H IH].
    - exists []. split; [constructor|apply ad_same].
    - destruct IH as (t' & K & A). exists (c :: t'). split; [constructor; assumption|]. apply (adj_app [c] [c]); [apply ad_same|exact A].
    - destruct IH as (t' & K & A). destruct (HM a x Hm) as (y & Hy & Ay). exists (y ++ t'). split; [constructor; assumption|]. apply adj_app; assumption.
  Qed.
  Lemma core_inj st en n s st' en' n' s' : reserved st -> reserved en -> reserved st' -> reserved en' -> core st en n ++ s = core st' en' n' ++ s' -> core st en n = core st' en' n' /\ s = s'.
  Proof.
    intros H1 H2 H3 H4 E. unfold core in *. cbn [app] in *. injection E as -> E.
    assert (D : forall k, Forall (fun c => ~ reserved c) (str_of_nat k)).
    { intros k. eapply Forall_impl; [|apply str_of_nat_digits]. intros c Hc Hr. unfold reserved in Hr. cbn in Hr. destruct Hr as [<-|[<-|[<-|[<-|[]]]]]; lia. }
    assert (G : forall x y e e' r r', Forall (fun c => ~ reserved c) x -> Forall (fun c => ~ reserved c) y -> reserved e -> reserved e' -> (x ++ [e]) ++ r = (y ++ [e']) ++ r' -> x = y /\ e = e' /\ r = r').
    { clear. induction x as [|c x IH]; intros y e e' r r' Hx Hy He He' E; destruct y as [|d y]; cbn [app] in E.
      - injection E as -> ->. auto.
      - injection E as -> E. inversion Hy; subst. contradiction.
      - injection E as -> E. inversion Hx; subst. contradiction.
      - injection E as -> E. inversion Hx; subst. inversion Hy; subst. destruct (IH y e e' r r') as (-> & -> & ->); auto. }
    destruct (G _ _ _ _ _ _ (D n) (D n') H2 H4 E) as (-> & -> & ->). auto.
  Qed.
  Lemma ex_fun (m : str -> str -> Prop) : (forall a x y, m a x -> m a y -> x = y) -> forall s t, ex m s t -> forall t', ex m s t' -> t = t'.
  Proof.
    intros HM. induction 1 as [|c s t Hc H IH|a x s t Hf Hm H IH]; intros t' H'.
    - inversion H' as [| |a x s t Hf Hm H1 E1 E2]; [reflexivity|]. exfalso. destruct (mform_head a Hf) as (? & ? & -> & _). discriminate.
    - inversion H' as [|c' s' u Hc' H1 E1 E2|a x s' u Hf Hm H1 E1 E2]; subst; [f_equal; auto|]. exfalso. destruct (mform_head a Hf) as (st & r & -> & Hs). cbn in E1. injection E1 as -> _. exact (Hc Hs).
    - remember (a ++ s) as q eqn:Eq. destruct H' as [|c' s' u Hc' H1|a' x' s' u Hf' Hm' H1].
      + exfalso. destruct (mform_head a Hf) as (? & ? & -> & _). discriminate.
      + exfalso. destruct (mform_head a Hf) as (st & r & -> & Hs). cbn in Eq. injection Eq as -> _. exact (Hc' Hs).
      + assert (a' = a /\ s' = s) as [-> ->].
        { destruct Hf as (st & en & n & R1 & R2 & ->), Hf' as (st' & en' & n' & R3 & R4 & ->). apply core_inj in Eq; auto. }
        rewrite (HM a x x' Hm Hm'), (IH u H1). reflexivity.
  Qed.

  (** *** tokens *)
  Notation tk := (tokenize U).
  Section Spell.
    Context (nq nb : nat) (ins : str -> res (list str)) (Hins : forall t, Forall (fun c => ~ reserved c) t -> ins t = Ok [t]).
    Lemma fine_form t : fine nq nb t -> mform t \/ Forall (fun c => ~ reserved c) t.
    Proof. intros [[(n & _ & ->)|(n & _ & ->)]|H]; [left|left|right; exact H]; eexists _, _, n; (split; [|split; [|reflexivity]]); unfold reserved; cbn; tauto. Qed.
    Lemma tokens_ex toks : Forall (fine nq nb) toks -> forall parts, mapM ins toks = Ok parts -> ex (fun a x => exists ts, ins a = Ok ts /\ x = concat ts) (concat toks) (concat (concat parts)).
    Proof.
      induction 1 as [|t toks Ht H IH]; intros parts E; [injection E as <-; constructor|]. cbn [mapM] in E. destruct (ins t) as [ts|e] eqn:Et; [|discriminate]. cbn [rbind] in E. destruct (mapM ins toks) as [ps|e] eqn:Es; [|discriminate]. cbn [rbind] in E. injection E as <-. cbn [concat]. rewrite concat_app.
      specialize (IH ps eq_refl). destruct (fine_form t Ht) as [Hf|Hf].
      - apply ex_mk; [exact Hf|exists ts; auto|exact IH].
      - rewrite (Hins t Hf) in Et. injection Et as <-. cbn [concat]. rewrite app_nil_r. apply ex_app; [apply ex_plain; exact Hf|exact IH].
    Qed.
    Lemma spell_text m t toks toks' parts u : ordinary U t -> tk t = Ok toks -> Forall (fine nq nb) toks' -> F (concat toks') = F (concat toks) -> mapM ins toks' = Ok parts ->
      ex m (W t) u -> (forall a x, m a x -> exists ts, ins a = Ok ts /\ adj x (F (concat ts))) -> adj u (F (concat (concat parts))).
    Proof.
      intros HO ET FT EF EM HX HM. assert (A : adj (W t) (F (concat toks))).
      { unfold written. apply adj_F. destruct t as [|c t]; [injection ET as <-; apply ad_same|]. apply (content_adjusted U OK); [discriminate|exact HO|exact ET]. }
      destruct (ex_adjusted m _ _ A [] [] u) as (u1 & X1 & A1); [cbn; rewrite app_nil_r; exact HX|]. cbn [app] in X1. rewrite app_nil_r in X1.
      destruct (ex_change m (fun a y => exists ts, ins a = Ok ts /\ y = F (concat ts)) _ _ X1) as (u2 & X2 & A2); [intros a x Hx; destruct (HM a x Hx) as (ts & E & Ha); exists (F (concat ts)); split; [exists ts; auto|exact Ha]|].
      pose proof (ex_F _ _ _ (tokens_ex toks' FT parts EM)) as X3. rewrite EF in X3.
      assert (E : u2 = F (concat (concat parts))).
      { eapply (ex_fun (fun a y => exists ts, ins a = Ok ts /\ y = F (concat ts))); [|exact X2|].
        - intros a x y (t1 & E1 & ->) (t2 & E2 & ->). congruence.
        - eapply ex_impl; [|exact X3]. intros a y (x & (ts & E1 & ->) & ->). exists ts. auto. }
      rewrite <- E. eapply ad_then; eauto.
    Qed.
  End Spell.

  (** *** quotations and brackets *)
  Section Parts.
    Context (Q B : list str).
    Definition mq (a x : str) : Prop := exists n q, a = core quote_start quote_end n /\ nth_error Q n = Some q /\ ordinary U q /\ x = 34%N :: W q ++ [34%N].
    Definition mb (a x : str) : Prop := mq a x \/ exists n q xi, a = core bracket_start bracket_end n /\ nth_error B n = Some q /\ ex mq (W q) xi /\ x = 40%N :: xi ++ [41%N].
    Lemma W_core st en n : reserved st -> reserved en -> forall b, W (core st en n ++ b) = core st en n ++ W b.
    Proof.
      intros H1 H2 b. assert (G : forall c, In c (core st en n) -> is_dash c = false /\ straight c = c /\ u_space U c = false /\ c <> 182%N).
      { intros c Hc. apply core_chars in Hc. assert (R : forall r, reserved r -> is_dash r = false /\ straight r = r /\ u_space U r = false /\ r <> 182%N).
        { intros r Hr. pose proof (reserved_not_space U OK r Hr) as S. unfold reserved in Hr. cbn in Hr. destruct Hr as [<-|[<-|[<-|[<-|[]]]]]; (split; [reflexivity|]; split; [reflexivity|]; split; [exact S|discriminate]). }
        destruct Hc as [->|[->|Hc]]; [auto|auto|]. split; [|split; [|split; [apply (digit_not_space U OK); exact Hc|lia]]].
        - unfold is_dash. destruct (N.eqb_spec c 8211), (N.eqb_spec c 8212); try reflexivity; lia.
        - unfold straight. destruct (N.eqb_spec c 8216), (N.eqb_spec c 8217), (N.eqb_spec c 8242), (N.eqb_spec c 8220), (N.eqb_spec c 8221), (N.eqb_spec c 8243); try lia; reflexivity. }
      revert G. generalize (core st en n) as k. induction k as [|c k IH]; intros G; [reflexivity|]. destruct (G c (or_introl eq_refl)) as (G1 & G2 & G3 & G4). cbn [app]. rewrite W_cons by exact G1. rewrite G2, G3, F_same by (intros [E|[]]; congruence). cbn [app]. rewrite IH; [reflexivity|]. intros d Hd. apply G. right. exact Hd.
    Qed.
    Lemma W_mark pre st en n rest : reserved st -> reserved en -> W (pre ++ mark st en n ++ rest) = W pre ++ core st en n ++ W rest.
    Proof.
      intros H1 H2. unfold mark. cbn [app]. rewrite W_app by reflexivity. f_equal. rewrite W_space by apply (space_is_space U OK).
      assert (E : st :: (str_of_nat n ++ en :: space :: []) ++ rest = core st en n ++ space :: rest) by (unfold core; cbn [app]; rewrite <- !app_assoc; reflexivity).
      etransitivity; [exact (f_equal (written U) E)|]. etransitivity; [apply W_core; assumption|]. f_equal. apply W_space, (space_is_space U OK).
    Qed.
    Lemma W_char a c b : is_dash c = false -> straight c = c -> u_space U c = false -> c <> 182%N -> W (a ++ [c] ++ b) = W a ++ [c] ++ W b.
    Proof. intros H1 H2 H3 H4. cbn [app]. rewrite W_app by exact H1. f_equal. rewrite W_cons by exact H1. rewrite H2, H3, F_same by (intros [E|[]]; congruence). reflexivity. Qed.
    Lemma W_quoted pre inside o c rest : (33 <= o < 127)%N -> (33 <= c < 127)%N -> W (pre ++ [o] ++ inside ++ [c] ++ rest) = W pre ++ [o] ++ W inside ++ [c] ++ W rest.
    Proof.
      assert (G : forall x, (33 <= x < 127)%N -> is_dash x = false /\ straight x = x /\ u_space U x = false /\ x <> 182%N).
      { intros x Hx. split; [unfold is_dash; destruct (N.eqb_spec x 8211), (N.eqb_spec x 8212); try reflexivity; lia|]. split; [|split; [apply (printable_space U OK); lia|lia]].
        unfold straight. destruct (N.eqb_spec x 8216), (N.eqb_spec x 8217), (N.eqb_spec x 8242), (N.eqb_spec x 8220), (N.eqb_spec x 8221), (N.eqb_spec x 8243); try lia; reflexivity. }
      intros Ho Hc. destruct (G o Ho) as (O1 & O2 & O3 & O4), (G c Hc) as (C1 & C2 & C3 & C4). rewrite W_char by assumption. rewrite W_char by assumption. reflexivity.
    Qed.
    Lemma quotes_ex b ps tl : parts_of 34%N 34%N b ps tl -> (forall c, In c b -> ~ reserved c) -> forall n, (forall k x, nth_error (map snd ps) k = Some x -> nth_error Q (n + k) = Some x /\ ordinary U x) ->
      ex mq (W (marked quote_start quote_end n ps tl)) (W b).
    Proof.
      induction 1 as [b H|pre ins rest ps tl H1 H2 P IH]; intros Hr n HQ; cbn [marked]; [apply ex_plain, W_plain; exact Hr|].
      rewrite W_mark by (unfold reserved; cbn; tauto). rewrite W_quoted by lia. apply ex_app; [apply ex_plain, W_plain; intros c Hc; apply Hr; rewrite !in_app_iff; tauto|].
      replace ([34%N] ++ W ins ++ [34%N] ++ W rest) with ((34%N :: W ins ++ [34%N]) ++ W rest) by (cbn [app]; rewrite <- app_assoc; reflexivity). apply ex_mk.
      - eexists _, _, n. split; [|split; [|reflexivity]]; unfold reserved; cbn; tauto.
      - destruct (HQ 0 ins eq_refl) as [E HO]. rewrite Nat.add_0_r in E. exists n, ins. auto.
      - apply IH; [intros c Hc; apply Hr; rewrite !in_app_iff; tauto|]. intros k x Hk. rewrite Nat.add_succ_comm. apply HQ. exact Hk.
    Qed.
    Lemma brackets_ex b ps tl : parts_of 40%N 41%N b ps tl -> forall u n, ex mq (W b) u -> (forall k x, nth_error (map snd ps) k = Some x -> nth_error B (n + k) = Some x) ->
      ex mb (W (marked bracket_start bracket_end n ps tl)) u.
    Proof.
      induction 1 as [b H|pre ins rest ps tl H1 H2 P IH]; intros u n HX HB; cbn [marked]; [eapply ex_impl; [|exact HX]; intros a x Hx; left; exact Hx|].
      rewrite W_mark by (unfold reserved; cbn; tauto). rewrite W_quoted in HX by lia.
      assert (R : forall c, (c < 3000)%N -> ~ reserved c) by (intros c Hc Hr; unfold reserved in Hr; cbn in Hr; destruct Hr as [<-|[<-|[<-|[<-|[]]]]]; lia).
      assert (P1 : forall c, (c < 3000)%N -> Forall (fun c => ~ reserved c) [c]) by (intros c Hc; constructor; [apply R; exact Hc|constructor]).
      assert (D1 : forall c, ~ (48 <= c <= 57)%N -> exists w0 l, [c] = w0 ++ [l] /\ ~ (48 <= l <= 57)%N) by (intros c Hc; exists [], c; auto).
      destruct (ex_split mq [40%N] (P1 40%N ltac:(lia)) (D1 40%N ltac:(lia)) _ _ HX (W pre) (W ins ++ [41%N] ++ W rest) eq_refl) as (u1 & u2 & -> & X1 & X2).
      destruct (ex_split mq [41%N] (P1 41%N ltac:(lia)) (D1 41%N ltac:(lia)) _ _ X2 (W ins) (W rest) eq_refl) as (u3 & u4 & -> & X3 & X4).
      apply ex_app; [eapply ex_impl; [|exact X1]; intros a x Hx; left; exact Hx|]. refine (eq_ind ((40%N :: u3 ++ [41%N]) ++ u4) (fun z => ex mb _ z) _ _ _); [apply ex_mk|cbn [app]; rewrite <- app_assoc; reflexivity].
      - eexists _, _, n. split; [|split; [|reflexivity]]; unfold reserved; cbn; tauto.
      - right. exists n, ins, u3. split; [reflexivity|]. split; [|split; [exact X3|reflexivity]]. pose proof (HB 0 ins eq_refl) as E. rewrite Nat.add_0_r in E. exact E.
      - apply IH; [exact X4|]. intros k x Hk. rewrite Nat.add_succ_comm. apply HB. exact Hk.
    Qed.
    Lemma quote_spell a x : mq a x -> exists ts, quote_block U tk Q a = Ok ts /\ adj x (F (concat ts)).
    Proof.
      intros (n & q & -> & En & HO & ->). destruct (tokenize_ok U OK q) as (toks & ET). exists ([[34%N]] ++ toks ++ [[34%N]]). split.
      - unfold quote_block. rewrite core_inside, (LSave.int_str U OK). cbn [rbind]. rewrite (index_nth Q n q En). cbn [rbind]. rewrite ET. reflexivity.
      - rewrite !concat_app, !F_app. change (F (concat [[34%N]])) with [34%N]. apply (adj_app [34%N] [34%N]); [apply ad_same|]. apply adj_app; [|apply ad_same]. unfold written. apply adj_F. destruct q as [|c q]; [injection ET as <-; apply ad_same|]. apply (content_adjusted U OK); [discriminate|exact HO|exact ET].
    Qed.
    Context (nq nb : nat) (HB : forall x, In x B -> ordinary U x /\ exists toks, tk x = Ok toks /\ Forall (fine nq nb) toks).
    Context (HI : forall t, fine nq nb t -> exists ts, (if startswith t [quote_start] then quote_block U tk Q t else Ok [t]) = Ok ts).
    Lemma insert_spell a x : mb a x -> exists ts, insert_blocks U tk Q B a = Ok ts /\ adj x (F (concat ts)).
    Proof.
      intros [Hq|(n & q & xi & -> & En & HX & ->)].
      - destruct (quote_spell a x Hq) as (ts & E & A). exists ts. split; [|exact A]. destruct Hq as (n & q & -> & _). unfold insert_blocks, core at 1. cbn [app]. rewrite starts_one, N.eqb_refl. exact E.
      - destruct (HB q (nth_error_In _ _ En)) as (HO & toks & ET & FT).
        set (ins := fun t => if startswith t [quote_start] then quote_block U tk Q t else Ok [t]).
        destruct (mapM_ok ins toks) as (parts & EM); [intros t Ht; rewrite Forall_forall in FT; apply HI, FT, Ht|].
        exists ([[40%N]] ++ concat parts ++ [[41%N]]). split.
        + unfold insert_blocks. unfold core at 1 2. cbn [app]. rewrite !starts_one. change (N.eqb quote_start bracket_start) with false. change (N.eqb bracket_start bracket_start) with true. cbn [orb]. rewrite core_inside, (LSave.int_str U OK). cbn [rbind].
          rewrite (index_nth B n q En). cbn [rbind]. rewrite ET. cbn [rbind]. change (mapM (fun t => if startswith t [quote_start] then quote_block U tk Q t else Ok [t]) toks) with (mapM ins toks). rewrite EM. reflexivity.
        + rewrite !concat_app, !F_app. change (F (concat [[40%N]])) with [40%N]. change (F (concat [[41%N]])) with [41%N]. apply (adj_app [40%N] [40%N]); [apply ad_same|]. apply adj_app; [|apply ad_same].
          eapply (spell_text nq nb ins); [|exact HO|exact ET|exact FT|reflexivity|exact EM|exact HX|].
          * intros t Ht. unfold ins. destruct (plain_start t Ht) as [-> _]. reflexivity.
          * intros a y Hy. destruct (quote_spell a y Hy) as (ts & E & A). exists ts. split; [|exact A]. unfold ins. destruct Hy as (k & q' & -> & _). unfold core at 1. cbn [app]. rewrite starts_one, N.eqb_refl. exact E.
    Qed.
  End Parts.

  (** *** the whole text *)
  Lemma kept_ordinary text t : ordinary U text -> tkept U text t -> ordinary U t.
  Proof.
    intros (H95 & H47 & HW & K1 & K2 & K3) HT.
    assert (one : forall c, (33 <= c < 127)%N -> ~ In c bar -> ~ In c text -> ~ In c t).
    { intros c Hc Hb Hn Hi. apply Hn. apply in_split in Hi. destruct Hi as (x & y & E). destruct (proj1 (HT [c] ltac:(split; [discriminate|]; intros d [<-|[]]; split; [exact Hb|apply (printable_space U OK); lia]))) as (u & v & ->); [exists x, y; exact E|]. rewrite !in_app_iff. right. left. left. reflexivity. }
    assert (lits : forall k, k <> [] -> (forall c, In c k -> (65 <= c <= 90)%N) -> ~ contains k (visible U text) -> ~ contains k (visible U t)).
    { intros k Hn Hk H Hc. apply H. apply (HT k); [|exact Hc]. split; [exact Hn|]. intros c Hi. apply Hk in Hi. split; [cbn; intros B; repeat (destruct B as [<-|B]; [lia|]); exact B|apply (printable_space U OK); lia]. }
    split; [apply one; [lia|cbn; intuition discriminate|exact H95]|]. split; [apply one; [lia|cbn; intuition discriminate|exact H47]|]. split; [|split; [|split]].
    - intros s Hs Hc. apply (HW s Hs). apply (HT s); [|exact Hc]. destruct Hs as (a & b & c & -> & Hs). split; [discriminate|].
      assert (WB : forall a, In 119%N (u_variants U a) -> ~ In a bar /\ u_space U a = false).
      { clear - OK. intros a Ha. split; [|rewrite <- (ok_var_space _ OK a 119%N Ha); apply (printable_space U OK); lia]. intros Hb. assert (Hc : (a < 128)%N \/ In a code_symbols) by (cbn in Hb |- *; intuition (subst; lia)). destruct Hc as [Hc|Hc].
        - destruct (ok_var_letter _ OK a 119%N Hc Ha ltac:(lia)) as [E|E]; cbn in Hb; repeat (destruct Hb as [<-|Hb]; [discriminate E|]); destruct Hb.
        - pose proof (ok_symbols _ OK a 119%N Hc (or_introl Ha)) as E. subst a. cbn in Hc. intuition discriminate. }
      rewrite Forall_forall in Hs. intros x [<-|[<-|[<-|[<-|[]]]]]; try (apply WB, Hs; cbn; tauto). split; [cbn; intuition discriminate|apply (S46 U OK)].
    - apply lits; [discriminate|cbn; intuition (subst; lia)|exact K1].
    - apply lits; [discriminate|cbn; intuition (subst; lia)|exact K2].
    - apply lits; [discriminate|cbn; intuition (subst; lia)|exact K3].
  Qed.
  Lemma parts_contained (o c : char) t ps tl p : parts_of o c t ps tl -> In p ps -> contains (snd p) t.
  Proof.
    intros P Hp. induction P as [t H|pre ins rest ps tl H1 H2 P IH]; [destruct Hp|]. destruct Hp as [<-|Hp]; [apply contains_r, contains_r, contains_l; exists [], []; rewrite app_nil_r; reflexivity|]. do 4 apply contains_r. auto.
  Qed.
  Lemma adj_concat (l : list str) (ls : list (list (list str))) : Forall2 (fun b d => adj (W b) (F (concat (concat d)))) l ls -> adj (concat (map W l)) (F (concat (concat (concat ls)))).
  Proof. induction 1 as [|b d l ls H F0 IH]; [apply ad_same|]. cbn [map concat]. rewrite !concat_app, F_app. apply adj_app; assumption. Qed.
  Lemma flatten {A} (ins : A -> res (list str)) ss : forall ls, mapM (fun sent => let! parts := mapM ins sent in Ok (concat parts)) ss = Ok ls -> exists parts, mapM ins (concat ss) = Ok parts /\ concat ls = concat parts.
  Proof.
    induction ss as [|s ss IH]; intros ls E; [injection E as <-; exists []; auto|]. cbn [mapM] in E. destruct (mapM ins s) as [ps|e] eqn:Ep; [|discriminate]. cbn [rbind] in E.
    match type of E with context [mapM ?f ss] => destruct (mapM f ss) as [ls'|e] eqn:Es end; [|discriminate]. injection E as <-. destruct (IH ls' eq_refl) as (parts & E1 & E2). exists (ps ++ parts). cbn [concat]. split; [|rewrite E2, concat_app; reflexivity].
    clear -Ep E1. revert ps Ep. induction s as [|x s IH]; intros ps Ep; [injection Ep as <-; exact E1|]. cbn [mapM app] in *. destruct (ins x) as [y|e]; [|discriminate]. cbn [rbind] in *. destruct (mapM ins s) as [ys|e]; [|discriminate]. injection Ep as <-. rewrite (IH ys eq_refl). reflexivity.
  Qed.
  Lemma F_no_paragraph toks : F (concat (filter (fun t => negb (str_eqb t paragraph)) toks)) = F (concat toks).
  Proof.
    induction toks as [|t toks IH]; [reflexivity|]. cbn [filter concat]. destruct (str_eqb t paragraph) eqn:E; cbn [negb concat]; rewrite !F_app, IH; [|reflexivity]. apply str_eqb_ok in E. subst t. reflexivity.
  Qed.
  Lemma find_all_src o c st en : forall bs ctr x, Forall (fun b => ~ In 10%N b) bs -> In x (snd (find_all U (re_block o c) st en bs ctr)) -> In x ctr \/ exists b1 ps tl, In b1 bs /\ parts_of o c b1 ps tl /\ In x (map snd ps).
  Proof.
    induction bs as [|b bs IH]; intros ctr x Hnl Hx; cbn [find_all] in Hx; [auto|]. inversion Hnl as [|? ? Hb Hbs]; subst. destruct (find_blocks_spec U o c st en b ctr Hb) as (ps & tl & P & E). rewrite E in Hx.
    destruct (find_all U (re_block o c) st en bs (ctr ++ map snd ps)) as [bs' R] eqn:ER. cbn [snd] in Hx. specialize (IH (ctr ++ map snd ps) x Hbs). rewrite ER in IH. cbn [snd] in IH. destruct (IH Hx) as [H|(b1 & ps1 & tl1 & H1 & H2 & H3)].
    - apply in_app_iff in H. destruct H as [H|H]; [auto|]. right. exists b, ps, tl. split; [left; reflexivity|auto].
    - right. exists b1, ps1, tl1. split; [right; exact H1|auto].
  Qed.
  Lemma chain2 {B C D} (R2 : B -> C -> Prop) (f : C -> res D) (P : B -> D -> Prop) l2 l3 : Forall2 R2 l2 l3 -> (forall b c d, In b l2 -> R2 b c -> f c = Ok d -> P b d) -> forall ds, mapM f l3 = Ok ds -> Forall2 P l2 ds.
  Proof.
    induction 1 as [|b c l2 l3 H2 F2 IH]; intros HP ds E; [injection E as <-; constructor|]. cbn [mapM] in E. destruct (f c) as [d|e] eqn:Ed; [|discriminate]. cbn [rbind] in E. destruct (mapM f l3) as [ds'|e] eqn:Es; [|discriminate]. injection E as <-. constructor.
    - apply (HP b c d); auto. left. reflexivity.
    - apply IH; [|reflexivity]. intros b' c' d' Hb. apply HP. right. exact Hb.
  Qed.
  (** the blocks of a text with their marks and tokens *)
  Definition quotes_of (Q : list str) (b b1 : str) : Prop := exists n ps tl, parts_of 34%N 34%N (sanitize U sz_sanitization b) ps tl /\ b1 = collapse U false (marked quote_start quote_end n ps tl) /\
    (forall k x, nth_error (map snd ps) k = Some x -> nth_error Q (n + k) = Some x).
  Definition tokens_of (text : str) (Q B : list str) (b1 : str) (l : list (list str)) : Prop := exists n ps tl b2 toks parts, parts_of 40%N 41%N b1 ps tl /\ b2 = collapse U false (marked bracket_start bracket_end n ps tl) /\
    (forall k x, nth_error (map snd ps) k = Some x -> nth_error B (n + k) = Some x) /\ ordinary U b2 /\ tk b2 = Ok toks /\ Forall (fine (length Q) (length B)) toks /\
    mapM (insert_blocks U tk Q B) (concat (split_sentences U toks)) = Ok parts /\ concat l = concat parts.
  Lemma setup text sentences : ordinary U text -> (forall c, In c text -> ~ reserved c) -> sentencize U tk text = Ok sentences -> exists blocks blocks1 Q B lists,
    split_blocks U text blocks /\ sentences = concat lists /\ Forall2 (quotes_of Q) blocks blocks1 /\ Forall2 (tokens_of text Q B) blocks1 lists /\
    (forall b, In b blocks -> contains b text /\ tkept U text (sanitize U sz_sanitization b) /\ forall c, In c (sanitize U sz_sanitization b) -> ~ reserved c) /\
    (forall x, In x Q -> exists b, In b blocks /\ contains x (sanitize U sz_sanitization b)) /\
    (forall x, In x B -> (exists b1, In b1 blocks1 /\ contains x b1) /\ ordinary U x /\ exists toks, tk x = Ok toks /\ Forall (fine (length Q) (length B)) toks).
  Proof.
    intros HO Hres. pose proof (split_newlines U OK text) as SB. set (blocks := re_split U false re_newline text) in *.
    assert (Hin : forall b, In b blocks -> Forall (fun c => ~ reserved c /\ c <> 95%N) (sanitize U sz_sanitization b)).
    { intros b Hb. apply Forall_forall. intros c Hc. apply (sanitized_in U OK) in Hc. destruct Hc as [Hc|[-> | ->]].
      - assert (In c text) as Hct by (eapply split_blocks_in; eauto). split; [apply Hres; exact Hct|]. intros ->. destruct HO as [HO _]. exact (HO Hct).
      - unfold reserved. cbn. intuition discriminate.
      - unfold reserved. cbn. intuition discriminate. }
    assert (Hpart : forall b, In b blocks -> contains b text).
    { clear - SB. induction SB as [b H|b s rest bs H1 H2 H3 H4 H5 H IH]; intros b' Hb; [destruct Hb as [<-|[]]; exists [], []; rewrite app_nil_r; reflexivity|]. destruct Hb as [<-|Hb]; [apply contains_l; exists [], []; rewrite app_nil_r; reflexivity|]. apply contains_r, contains_r. auto. }
    unfold sentencize. fold blocks. change re_quote with (re_block 34%N 34%N). change re_bracket with (re_block 40%N 41%N).
    destruct (find_all_spec U 34%N 34%N quote_start quote_end (map (sanitize U sz_sanitization) blocks) []) as (ext1 & _ & F1).
    { apply Forall_forall. intros b Hb. apply in_map_iff in Hb. destruct Hb as (b0 & <- & _). apply (sanitized_no_nl U OK). }
    assert (NL0 : Forall (fun b => ~ In 10%N b) (map (sanitize U sz_sanitization) blocks)).
    { apply Forall_forall. intros b Hb. apply in_map_iff in Hb. destruct Hb as (b0 & <- & _). apply (sanitized_no_nl U OK). }
    pose proof (fun x => find_all_src 34%N 34%N quote_start quote_end (map (sanitize U sz_sanitization) blocks) [] x NL0) as SRQ.
    destruct (find_all U (re_block 34%N 34%N) quote_start quote_end (map (sanitize U sz_sanitization) blocks) []) as [blocks1 Q]. cbn [fst snd] in F1, SRQ.
    assert (NL : Forall (fun b => ~ In 10%N b) blocks1).
    { apply Forall_forall. intros b Hb Hc. destruct (Forall2_in_r _ _ _ F1 _ Hb) as (b0 & _ & n & ps & tl & _ & -> & _). apply (collapse_space U) in Hc; [discriminate|]. rewrite (ok_space _ OK) by reflexivity. reflexivity. }
    destruct (find_all_spec U 40%N 41%N bracket_start bracket_end blocks1 [] NL) as (ext2 & EX2 & F2).
    pose proof (fun x => find_all_src 40%N 41%N bracket_start bracket_end blocks1 [] x NL) as SRC.
    destruct (find_all U (re_block 40%N 41%N) bracket_start bracket_end blocks1 []) as [blocks2 B]. cbn [fst snd] in *.
    set (nq := length Q). set (nb := length B).
    assert (TS : forall b, In b blocks -> tkept U text (sanitize U sz_sanitization b)).
    { intros b Hb. eapply tkept_trans; [apply tkept_part, (Hpart b Hb)|]. apply (tkept_sanitized U OK). }
    assert (D1 : forall b1, In b1 blocks1 -> tkept U text b1 /\ exists d, dec res_chars (menv nq nb) b1 d /\ iso U d).
    { intros b1 Hb1. destruct (Forall2_in_r _ _ _ F1 _ Hb1) as (b0 & Hb0 & n & ps & tl & P & -> & HQ). apply in_map_iff in Hb0. destruct Hb0 as (b & <- & Hb). split.
      - eapply tkept_trans; [apply TS; exact Hb|]. eapply tkept_trans; [|apply (tkept_collapse U OK)]. eapply tkept_marked; [| | | | |exact P]; try (cbn; tauto). apply (reserved_not_space U OK), res_qs.
      - destruct (marked_dec U OK nq nb 34%N 34%N quote_start quote_end _ ps tl rare34 (plain_rare _ rare34) rare34 (plain_rare _ rare34) P n (map C (sanitize U sz_sanitization b))) as [(d & D & I) _].
        + intros k Hk. left. exists (n + k). split; [|reflexivity]. unfold nq. apply nth_error_Some. destruct (nth_error (map snd ps) k) as [x|] eqn:E; [rewrite (HQ k x E); discriminate|]. apply nth_error_None in E. rewrite map_length in E. lia.
        + apply LDecode.dec_plain. eapply Forall_impl; [|exact (Hin b Hb)]. intros c [H1 H2] [<-|H3]; [congruence|]. exact (H1 H3).
        + apply iso_text.
        + exists (dcol U false d). split; [apply (dec_collapse U OK); exact D|apply (iso_collapse U OK); exact I]. }
    assert (DB : forall x, In x B -> (exists b1, In b1 blocks1 /\ contains x b1) /\ ordinary U x /\ exists toks, tk x = Ok toks /\ Forall (fine nq nb) toks).
    { intros x Hx. destruct (SRC x Hx) as [[]|(b1 & ps & tl & Hb1 & P & Hxp)]. destruct (D1 b1 Hb1) as (T1 & d & D & I). apply in_map_iff in Hxp. destruct Hxp as (p & <- & Hp).
      assert (TP : tkept U text (snd p)) by (eapply tkept_trans; [exact T1|]; apply tkept_part; eapply parts_contained; eauto). split; [exists b1; split; [exact Hb1|eapply parts_contained; eauto]|]. split; [exact (kept_ordinary _ _ HO TP)|].
      assert (exists d', dec res_chars (menv nq nb) (snd p) d' /\ iso U d') as (d' & D' & I').
      { clear - D I P Hp OK. revert d D I. induction P as [t H|pre ins rest ps tl H1 H2 P IH]; intros d D I; [destruct Hp|]. apply (dec_cut1 nq nb 40%N) in D; [|exact rare40|exact (plain_rare _ rare40)]. destruct D as (d1 & d2 & -> & D1 & D2). apply (dec_cut1 nq nb 41%N) in D2; [|exact rare41|exact (plain_rare _ rare41)]. destruct D2 as (d3 & d4 & -> & D3 & D4).
        apply iso_app in I. destruct I as [_ I]. apply iso_app in I. destruct I as [_ I]. apply iso_app in I. destruct I as [I3 I]. apply iso_app in I. destruct I as [_ I4]. destruct Hp as [<-|Hp]; [exists d3; auto|]. exact (IH Hp d4 D4 I4). }
      exact (tokens_fine U OK nq nb text (snd p) d' HO TP D' I'). }
    intros ES. match type of ES with rbind (mapM ?g blocks2) _ = _ => destruct (mapM g blocks2) as [lists|e] eqn:EL end; [|discriminate]. cbn [rbind] in ES. injection ES as <-.
    exists blocks, blocks1, Q, B, lists. split; [exact SB|]. split; [reflexivity|]. split; [|split; [|split; [|split; [|exact DB]]]].
    - clear -F1. unfold quotes_of. revert F1. generalize blocks1. induction blocks as [|b bs IH]; intros l F; inversion F; subst; constructor; auto.
    - refine (chain2 _ _ _ _ _ F2 _ lists EL). clear EL lists. intros b1 b2 l Hb1 (n2 & ps2 & tl2 & P2 & E2 & HBn) El.
      destruct (D1 b1 Hb1) as (T1 & d & D & I).
      destruct (marked_dec U OK nq nb 40%N 41%N bracket_start bracket_end _ ps2 tl2 rare40 (plain_rare _ rare40) rare41 (plain_rare _ rare41) P2 n2 d) as [(d' & D' & I') _]; [|exact D|exact I|].
      { intros k Hk. right. exists (n2 + k). split; [|reflexivity]. unfold nb. apply nth_error_Some. destruct (nth_error (map snd ps2) k) as [x|] eqn:E; [rewrite (HBn k x E); discriminate|]. apply nth_error_None in E. rewrite map_length in E. lia. }
      assert (T2 : tkept U text b2).
      { rewrite E2. eapply tkept_trans; [exact T1|]. eapply tkept_trans; [|apply (tkept_collapse U OK)]. eapply tkept_marked; [| | | | |exact P2]; try (cbn; tauto). apply (reserved_not_space U OK), res_bs. }
      destruct (tokens_fine U OK nq nb text b2 (dcol U false d') HO T2) as (toks & ET & FT); [rewrite E2; apply (dec_collapse U OK); exact D'|apply (iso_collapse U OK); exact I'|].
      rewrite ET in El. cbn [rbind] in El. destruct (flatten _ _ _ El) as (parts & EP & EC). exists n2, ps2, tl2, b2, toks, parts. repeat (split; [assumption|]). split; [exact (kept_ordinary _ _ HO T2)|]. auto.
    - intros b Hb. split; [auto|]. split; [auto|]. intros c Hc. pose proof (Hin b Hb) as HF. rewrite Forall_forall in HF. apply HF. exact Hc.
    - intros x Hx. destruct (SRQ x Hx) as [[]|(b1 & ps & tl & Hb1 & P & Hxp)]. apply in_map_iff in Hb1. destruct Hb1 as (b & <- & Hb). exists b. split; [exact Hb|]. apply in_map_iff in Hxp. destruct Hxp as (p & <- & Hp). eapply parts_contained; eauto.
  Qed.
  Lemma nested_fine (Q B : list str) t : fine (length Q) (length B) t -> exists ts, (if startswith t [quote_start] then quote_block U tk Q t else Ok [t]) = Ok ts.
  Proof.
    intros [[(n & Hn & ->)|(n & Hn & ->)]|Ht].
    - unfold core at 1. cbn [app]. rewrite starts_one, N.eqb_refl. apply (quote_fine U OK). exact Hn.
    - unfold core at 1. cbn [app]. rewrite starts_one. change (N.eqb quote_start bracket_start) with false. eexists. reflexivity.
    - destruct (plain_start t Ht) as [-> _]. eexists. reflexivity.
  Qed.
  Theorem sentences_spell text sentences : ordinary U text -> (forall c, In c text -> ~ reserved c) -> sentencize U tk text = Ok sentences -> adj (W text) (F (concat (concat sentences))).
  Proof.
    intros HO Hres ES. destruct (setup text sentences HO Hres ES) as (blocks & blocks1 & Q & B & lists & SB & -> & F1 & F2 & HS & _ & DB).
    rewrite (W_blocks text blocks SB). apply adj_concat. assert (G : forall b b1 l, In b blocks -> quotes_of Q b b1 -> tokens_of text Q B b1 l -> adj (W b) (F (concat (concat l)))).
    { intros b b1 l Hb (n1 & ps1 & tl1 & P1 & E1 & HQ) (n2 & ps2 & tl2 & b2 & toks & parts & P2 & E2 & HBn & HO2 & ET & FT & EP & EC). destruct (HS b Hb) as (_ & TS & Hr).
      match goal with |- adj _ (F (concat ?z)) => replace z with (concat parts) by (symmetry; exact EC) end.
      pose proof (sentences_tokens toks (split_sentences U toks) (split_loop_spec U toks [] (Forall_nil _))) as EF.
      eapply (spell_text (length Q) (length B) (insert_blocks U tk Q B)) with (m := mb Q B) (toks := toks) (t := b2).
      - intros t Ht. unfold insert_blocks. destruct (plain_start t Ht) as [-> ->]. reflexivity.
      - exact HO2.
      - exact ET.
      - apply Forall_forall. intros t Ht. apply (eq_ind _ (fun z => In t z) Ht) in EF. apply filter_In in EF. rewrite Forall_forall in FT. apply FT. tauto.
      - etransitivity; [exact (f_equal (fun z => F (concat z)) EF)|]. apply F_no_paragraph.
      - exact EP.
      - rewrite E2, W_collapse. eapply brackets_ex; [exact P2| |exact HBn]. rewrite E1, W_collapse, <- (W_sanitize b). eapply quotes_ex; [exact P1|exact Hr|].
        intros k x Hk. split; [apply HQ; exact Hk|]. apply nth_error_In in Hk. apply in_map_iff in Hk. destruct Hk as (p & <- & Hp). eapply kept_ordinary; [exact HO|]. eapply tkept_trans; [exact TS|]. apply tkept_part. eapply parts_contained; eauto.
      - intros a x Hx. eapply (insert_spell Q B (length Q) (length B)); eauto; [intros y Hy; apply DB; exact Hy|apply nested_fine]. }
    clear -F1 F2 G. revert lists F2. induction F1 as [|b b1 bs bs1 H1 F1 IH]; intros lists F2; inversion F2 as [|? l ? ls H2 F2']; subst; constructor.
    - eapply G; eauto. left. reflexivity.
    - apply IH; [|exact F2']. intros x y z Hx. apply G. right. exact Hx.
  Qed.
  (** *** exactly the same characters *)
  Lemma adj_exact s t : adj s t -> (forall n, numeral U n -> ~ contains (n ++ lit "'") s /\ ~ contains (n ++ lit """") s) -> ~ contains (lit "**") s -> t = s.
  Proof.
    assert (R : forall w : str, contains w w) by (intros w; exists [], []; rewrite app_nil_r; reflexivity).
    induction 1 as [s|n Hn|n Hn|k|a s t b H IH|s t u H1 IH1 H2 IH2]; intros HN HS.
    - reflexivity.
    - exfalso. apply (proj1 (HN n Hn)). apply R.
    - exfalso. apply (proj2 (HN n Hn)). apply R.
    - destruct k as [|k]; [reflexivity|]. exfalso. apply HS. exists [], (repeat 42%N k). reflexivity.
    - rewrite IH; [reflexivity| |].
      + intros n Hn. destruct (HN n Hn) as [K1 K2]. split; intros K; [apply K1|apply K2]; apply contains_r, contains_l; exact K.
      + intros K. apply HS. apply contains_r, contains_l. exact K.
    - rewrite (IH2); [apply IH1; assumption| |]; rewrite IH1; assumption.
  Qed.

  (** *** paragraph marks *)
  Lemma index_in {A} (l : list A) z x : index l z = Ok x -> In x l.
  Proof. unfold index. intros H. match type of H with context [if ?b then _ else _] => destruct b end; [discriminate|]. destruct (nth_error l _) as [y|] eqn:E; [|discriminate]. injection H as <-. exact (nth_error_In _ _ E). Qed.
  Lemma adj_in s t c : adj s t -> In c t -> In c s \/ In c (lit "ftin*").
  Proof.
    induction 1 as [s|n Hn|n Hn|k|a s t b H IH|s t u H1 IH1 H2 IH2]; intros Hc.
    - auto.
    - apply in_app_iff in Hc. destruct Hc as [Hc|Hc]; [left; apply in_app_iff; auto|right; cbn in *; tauto].
    - apply in_app_iff in Hc. destruct Hc as [Hc|Hc]; [left; apply in_app_iff; auto|right; cbn in *; tauto].
    - right. cbn in *. tauto.
    - rewrite !in_app_iff in *. tauto.
    - destruct (IH2 Hc) as [K|K]; auto.
  Qed.
  Lemma V_in c s : In c (V s) -> In c (map straight s) \/ c = 45%N.
  Proof.
    unfold visible. rewrite filter_In. intros [H _]. induction s as [|x s IH]; [destruct H|]. cbn [map one_dash] in H. destruct (is_dash (straight x)).
    - destruct (map straight s) as [|y l] eqn:E; [destruct H as [<-|[]]; auto|]. destruct (is_dash y); [|destruct H as [<-|H]; [auto|]]; destruct (IH H) as [K|K]; auto; left; cbn [map]; rewrite E; right; exact K.
    - cbn [map]. destruct H as [<-|H]; [left; left; reflexivity|]. destruct (IH H) as [K|K]; auto. left. right. exact K.
  Qed.
  Lemma tokens_unmarked t toks : ordinary U t -> tk t = Ok toks -> ~ In 182%N t -> ~ In 182%N (concat toks).
  Proof.
    intros HO ET Hn Hi. destruct t as [|c t]; [injection ET as <-; exact Hi|]. set (t0 := c :: t) in *. assert (A : adj (V t0) (concat toks)) by (apply (content_adjusted U OK); [discriminate|exact HO|exact ET]).
    destruct (adj_in _ _ _ A Hi) as [K|K]; [|cbn in K; intuition discriminate]. apply V_in in K. destruct K as [K|K]; [|discriminate]. apply in_map_iff in K. destruct K as (d & E & Hd). apply Hn. replace 182%N with d; [exact Hd|].
    unfold straight in E. destruct ((d =? 8216) || (d =? 8217) || (d =? 8242))%N; [discriminate|]. destruct ((d =? 8220) || (d =? 8221) || (d =? 8243))%N; [discriminate|]. exact E.
  Qed.
  Lemma close_same s : ~ contains [46; 34]%N s -> close_quotes s = s.
  Proof.
    induction s as [|c s IH]; intros H; [reflexivity|]. rewrite close_cons; [f_equal; apply IH; intros (x & y & ->); apply H; exists (c :: x), y; reflexivity|]. intros s' E. apply H. exists [], s'. exact E.
  Qed.
  Lemma marked_unmarked st en n (o c : char) t ps tl : reserved st -> reserved en -> parts_of o c t ps tl -> ~ In 182%N t -> ~ In 182%N (collapse U false (marked st en n ps tl)).
  Proof.
    intros Hs He P Hn Hi. apply (collapse_in U OK) in Hi; [|apply (S182 U OK)]. apply marked_in in Hi. apply Hn. apply (parts_in o c t ps tl P). destruct Hi as [(p & Hp & Hd)|[Hi|(k & Hi)]]; [left; exists p; auto|right; exact Hi|].
    exfalso. apply mark_chars in Hi. unfold reserved in *. cbn in Hs, He. destruct Hi as [Hi|[<-|[<-|Hi]]]; [discriminate|intuition discriminate|intuition discriminate|lia].
  Qed.
  Theorem sentences_unmarked text sentences : ordinary U text -> (forall c, In c text -> ~ reserved c) -> ~ In 182%N text -> ~ contains [46; 34]%N text -> sentencize U tk text = Ok sentences -> ~ In 182%N (concat (concat sentences)).
  Proof.
    intros HO Hres H182 Hq ES. destruct (setup text sentences HO Hres ES) as (blocks & blocks1 & Q & B & lists & SB & -> & F1 & F2 & HS & HQs & DB).
    assert (NS : forall b, In b blocks -> ~ In 182%N (sanitize U sz_sanitization b)).
    { intros b Hb Hi. destruct (HS b Hb) as (Hc & _ & _). rewrite (sanitize_block U OK), close_same in Hi by (intros K; apply Hq; eapply contains_trans; eauto). apply join_in in Hi. destruct Hi as [Hi|(w & Hw & Hi)]; [discriminate|].
      apply H182. destruct Hc as (x & y & ->). rewrite !in_app_iff. right. left. exact (words_in _ _ _ _ Hw Hi). }
    assert (IN : forall (x s : str), contains x s -> ~ In 182%N s -> ~ In 182%N x) by (intros x s (u & v & ->) Hn Hi; apply Hn; rewrite !in_app_iff; tauto).
    assert (N1 : forall b1, In b1 blocks1 -> ~ In 182%N b1).
    { intros b1 Hb1. destruct (Forall2_in_r _ _ _ F1 _ Hb1) as (b & Hb & n & ps & tl & P & -> & _). eapply marked_unmarked; [apply res_qs|apply res_qe|exact P|apply NS; exact Hb]. }
    assert (NQ : forall a ts, quote_block U tk Q a = Ok ts -> ~ In 182%N (concat ts)).
    { intros a ts E. unfold quote_block in E. destruct (int_of_str _ _) as [z|e]; [|discriminate]. cbn [rbind] in E. destruct (index Q z) as [q|e] eqn:EI; [|discriminate]. cbn [rbind] in E. destruct (tk q) as [toks|e] eqn:ET; [|discriminate]. cbn [rbind] in E. injection E as <-.
      assert (In q Q) as HqQ by (eapply index_in; exact EI). destruct (HQs q HqQ) as (b & Hb & Hc). destruct (HS b Hb) as (_ & TS & _).
      change (~ In 182%N (concat ([[34%N]] ++ toks ++ [[34%N]]))). rewrite !concat_app, !in_app_iff. intros [K|[K|K]]; [cbn in K; intuition discriminate| |cbn in K; intuition discriminate]. revert K. eapply tokens_unmarked; [|exact ET|eapply IN; [exact Hc|apply NS; exact Hb]]. eapply kept_ordinary; [exact HO|]. eapply tkept_trans; [exact TS|]. apply tkept_part. exact Hc. }
    assert (NP : forall (ins : str -> res (list str)) l parts, (forall t ts, In t l -> ins t = Ok ts -> ~ In 182%N (concat ts)) -> mapM ins l = Ok parts -> ~ In 182%N (concat (concat parts))).
    { clear. intros ins l. induction l as [|t l IH]; intros parts H E; [injection E as <-; cbn; tauto|]. cbn [mapM] in E. destruct (ins t) as [ts|e] eqn:Et; [|discriminate]. cbn [rbind] in E. destruct (mapM ins l) as [ps|e] eqn:Es; [|discriminate]. injection E as <-. cbn [concat]. rewrite concat_app, in_app_iff. intros [K|K].
      - exact (H t ts (or_introl eq_refl) Et K).
      - revert K. apply (IH ps); [|reflexivity]. intros t' ts' Ht. apply H. right. exact Ht. }
    assert (NI : forall t ts, ~ In 182%N t -> insert_blocks U tk Q B t = Ok ts -> ~ In 182%N (concat ts)).
    { intros t ts Ht E. unfold insert_blocks in E. destruct (startswith t [quote_start]); [exact (NQ t ts E)|]. destruct (startswith t [bracket_start]); [|injection E as <-; cbn; rewrite app_nil_r; exact Ht].
      destruct (int_of_str _ _) as [z|e]; [|discriminate]. cbn [rbind] in E. destruct (index B z) as [q|e] eqn:EI; [|discriminate]. cbn [rbind] in E. assert (In q B) as HqB by (eapply index_in; exact EI). destruct (DB q HqB) as ((b1 & Hb1 & Hc) & HOq & toks & ET & _). rewrite ET in E. cbn [rbind] in E.
      match type of E with context [mapM ?f toks] => destruct (mapM f toks) as [parts|e] eqn:EM end; [|discriminate]. cbn [rbind] in E. injection E as <-. change (~ In 182%N (concat ([[40%N]] ++ concat parts ++ [[41%N]]))). rewrite !concat_app, !in_app_iff. intros [K|[K|K]]; [cbn in K; intuition discriminate| |cbn in K; intuition discriminate]. revert K. eapply NP; [|exact EM].
      intros u us Hu Eu. cbv beta in Eu. destruct (startswith u [quote_start]); [exact (NQ u us Eu)|]. injection Eu as <-. cbn. rewrite app_nil_r. intros K. apply (tokens_unmarked q toks HOq ET (IN _ _ Hc (N1 b1 Hb1))). apply in_concat. exists u. auto. }
    intros Hi. apply in_concat in Hi. destruct Hi as (tok & Ht & Hi). apply in_concat in Ht. destruct Ht as (sent & Hs & Ht). apply in_concat in Hs. destruct Hs as (l & Hl & Hs).
    destruct (Forall2_in_r _ _ _ F2 _ Hl) as (b1 & Hb1 & n2 & ps2 & tl2 & b2 & toks & parts & P2 & E2 & HBn & HO2 & ET & FT & EP & EC).
    assert (~ In 182%N (concat (concat parts))) as HN.
    { eapply NP; [|exact EP]. intros t ts Htt. apply NI. pose proof (sentences_tokens toks (split_sentences U toks) (split_loop_spec U toks [] (Forall_nil _))) as EF. apply (eq_ind _ (fun z => In t z) Htt) in EF. apply filter_In in EF. intros K.
      assert (H2 : ~ In 182%N b2) by (rewrite E2; eapply marked_unmarked; [apply res_bs|apply res_be|exact P2|apply N1; exact Hb1]). apply (tokens_unmarked b2 toks HO2 ET H2). apply in_concat. exists t. tauto. }
    apply HN. refine (eq_ind (concat l) (fun z => In 182%N (concat z)) _ _ EC). apply in_concat. exists tok. split; [|exact Hi]. apply in_concat. exists sent. auto.
  Qed.
End Keep.
