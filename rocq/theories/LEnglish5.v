(** Proofs about the tokenizer on ordinary English text: the marks and the full stops. *)
From Coq Require Import Ascii String.
From Coq Require Import List NArith ZArith Arith Bool Lia.
From Verif Require Import PyBase Regex MTokenizer STok SEnglish LBase LUdb LRegex LSub LTok LTokWords LRun LEnglish LEnglish2 LEnglish3 LEnglish4.
Import ListNotations.
Local Open Scope nat_scope.

Lemma words_core c y : core_ok c -> sfirst y -> words (ctext c ++ y) = mstr (MC c TNone) :: words y.
Proof. intros Hc Hy. rewrite words_app_r by exact Hy. rewrite word_words by exact Hc. reflexivity. Qed.
(** *** marks that are always split off *)
Definition is_mc (x : mw) : Prop := match x with MC _ _ => True | MSym _ => False end.
Definition ok1 (x : mw) : Prop := base x /\ is_mc x.
Notation ral := (r_pat re_always_split).
Notation ial := (r_ic re_always_split).
Lemma always_mark m b rest : In m [33; 63; 59]%N -> sfirst rest -> exists st, match_at A ial ral b (m :: rest) = Some st /\ bef st = m :: b /\ aft st = rest.
Proof.
  intros Hm Hr. destruct rest as [|c rest].
  - destruct Hm as [<-|[<-|[<-|[]]]]; eexists; (split; [reflexivity|split; reflexivity]).
  - specialize (Hr c rest eq_refl). apply space_in in Hr. destruct Hm as [<-|[<-|[<-|[]]]]; cbn in Hr; repeat (destruct Hr as [<-|Hr]; [eexists; split; [reflexivity|split; reflexivity]|]); contradiction.
Qed.
Lemma always_dot b rest : sfirst rest -> match_at A ial ral b (46%N :: rest) = None.
Proof.
  intros Hr. destruct rest as [|c rest]; [reflexivity|]. specialize (Hr c rest eq_refl). apply space_in in Hr. each Hr.
Qed.
Definition falways (x : mw) : str := match x with MC c (TMark m) => if existsb (N.eqb m) [33; 63; 59]%N then ctext c ++ [32; m; 32]%N else mstr x | _ => mstr x end.
Definition Falways (x : mw) : list mw := match x with MC c (TMark m) => if existsb (N.eqb m) [33; 63; 59]%N then [MC c TNone; MSym [m]] else [x] | _ => [x] end.
Lemma quiet_always : quiet ial ral alnumb = true.
Proof. vm_compute. reflexivity. Qed.
Lemma HNal : nullable ral = false.
Proof. reflexivity. Qed.
Lemma rule_always a xs : words a = map mstr xs -> Forall ok1 xs -> words (apply_rule A a re_always_split) = map mstr (flat_map Falways xs).
Proof.
  apply (step re_always_split ok1 HNal ltac:(vm_compute; reflexivity) falways Falways).
  - intros b x rest [Hx Hm] Hb Hr. destruct x as [c t|s]; [|contradiction]. destruct Hx as (Hc & Ht & _). cbn [mstr]. rewrite <- app_assoc. rewrite (core_skip ial ral (r_rep re_always_split) quiet_always D_always c Hc). rewrite rev_app_distr, <- app_assoc.
    assert (Q : forall c b a, (c < 128)%N -> (alnumb c || (c =? 44) || (c =? 58) || (c =? 95))%N = true -> sr A ial ral (r_rep re_always_split) b (c :: a) = c :: sr A ial ral (r_rep re_always_split) (c :: b) a).
    { intros c0 b0 a0 H1 H2. apply sr_skip; [exact HNal|]. apply (quiet_none _ _ (fun c => (alnumb c || (c =? 44) || (c =? 58) || (c =? 95))%N)); [vm_compute; reflexivity|exact H1|exact H2]. }
    destruct t as [|m0|]; cbn [tstr app rev falways].
    + cbn [mstr tstr]. rewrite app_nil_r. reflexivity.
    + assert (AM : In m0 [33; 63; 59]%N -> sr A ial ral (r_rep re_always_split) (rev (ctext c) ++ b) (m0 :: rest) = [32; m0; 32]%N ++ sr A ial ral (r_rep re_always_split) (m0 :: rev (ctext c) ++ b) rest).
      { intros I0. destruct (always_mark m0 (rev (ctext c) ++ b) rest I0 Hr) as (st & E & Eb & Ea). rewrite (sr_match _ _ _ _ HNal _ _ _ E). rewrite Ea, Eb. f_equal.
        unfold expand. cbn [r_rep re_always_split mk flat_map]. unfold tl_, g. rewrite (matched_eq _ _ [m0]) by exact Eb. reflexivity. }
      cbn in Ht. destruct Ht as [<-|[<-|[<-|[<-|[<-|[<-|[]]]]]]]; cbn [N.eqb Pos.eqb orb existsb falways mstr tstr].
      * rewrite Q by reflexivity. rewrite <- app_assoc. reflexivity.
      * rewrite <- app_assoc. exact (f_equal (app (ctext c)) (AM ltac:(cbn; tauto))).
      * rewrite <- app_assoc. exact (f_equal (app (ctext c)) (AM ltac:(cbn; tauto))).
      * rewrite <- app_assoc. exact (f_equal (app (ctext c)) (AM ltac:(cbn; tauto))).
      * rewrite Q by reflexivity. rewrite <- app_assoc. reflexivity.
      * rewrite sr_skip; [|exact HNal|apply always_dot; exact Hr]. rewrite <- app_assoc. reflexivity.
    + unfold nsd. cbn [lit app rev mstr tstr]. rewrite !Q by reflexivity. unfold nsd. rewrite <- app_assoc. reflexivity.
  - intros x [Hx Hm]. destruct x as [c t|s]; [|contradiction]. destruct (base_word _ Hx) as [H1 H2]. pose proof (split_ws_word (u_space A) _ H1 H2) as W. unfold falways, Falways. destruct t as [|m0|]; try exact W. destruct (existsb _ _) eqn:Em; [|exact W].
    destruct Hx as (Hc & Ht & _). etransitivity; [apply (words_core c [32%N; m0; 32%N] Hc); intros d y Ey; injection Ey as <- _; reflexivity|]. apply mem_in in Em. destruct Em as [<-|[<-|[<-|[]]]]; reflexivity.
Qed.

(** *** the full stops *)
Definition ok2 (x : mw) : Prop := base x /\ match x with MC _ (TMark m) => In m [44; 58; 46]%N | MC _ _ => True | MSym s => In s [[33]; [63]; [59]]%N end.
Lemma always_ok xs : Forall ok1 xs -> Forall ok2 (flat_map Falways xs).
Proof.
  induction 1 as [|x xs [Hx Hm] _ IH]; [constructor|]. cbn [flat_map]. apply Forall_app. split; [|exact IH]. destruct x as [c t|s]; [|contradiction]. unfold Falways. destruct t as [|m0|]; [repeat constructor; apply Hx| |repeat constructor; apply Hx].
  destruct Hx as (Hc & Ht & Hn).
  assert (S1 : In m0 [33; 63; 59]%N -> Forall ok2 [MC c TNone; MSym [m0]]).
  { intros Hi. constructor; [split; [|exact I]; split; [exact Hc|split; [exact I|destruct c; exact I]]|]. constructor; [|constructor]. destruct Hi as [<-|[<-|[<-|[]]]]; (split; [vm_compute; tauto|cbn; tauto]). }
  assert (S2 : In m0 [44; 58; 46]%N -> Forall ok2 [MC c (TMark m0)]).
  { intros Hi. constructor; [|constructor]. split; [split; [exact Hc|split; [exact Ht|exact Hn]]|exact Hi]. }
  cbn in Ht. destruct Ht as [<-|[<-|[<-|[<-|[<-|[<-|[]]]]]]]; cbn [N.eqb Pos.eqb orb existsb]; first [apply S1; cbn; tauto|apply S2; cbn; tauto].
Qed.
Fixpoint mindots (r : re) : nat :=
  match r with
  | Chr cs => if negb (cs_neg cs) && must_items [46%N] (cs_items cs) then 1 else 0
  | Seq a b => mindots a + mindots b
  | Alt a b => Nat.min (mindots a) (mindots b)
  | Grp _ a => mindots a
  | _ => 0
  end.
Definition dots (s : str) : nat := length (filter (N.eqb 46%N) s).
Lemma dots_app a b : dots (a ++ b) = dots a + dots b.
Proof. unfold dots. rewrite filter_app, app_length. reflexivity. Qed.
Lemma mindots_lang ic r : forall x, lang A ic r x -> mindots r <= dots x.
Proof.
  induction r as [|cs|r1 IH1 r2 IH2|r1 IH1 r2 IH2|g0 r IH|n r IH|pos r IH|pos l|pos| |]; cbn [lang mindots]; intros x H; try lia.
  - destruct (_ && _) eqn:E; [|lia]. destruct H as (d & -> & Hd). pose proof (must_cset A ascii_udb_ok ic [46%N] cs d eq_refl E Hd) as [<-|[]]. cbn. lia.
  - destruct H as (y & z & -> & H1 & H2). rewrite dots_app. specialize (IH1 _ H1). specialize (IH2 _ H2). lia.
  - destruct H as [H|H]; [specialize (IH1 _ H)|specialize (IH2 _ H)]; lia.
  - apply IH. exact H.
Qed.
Lemma dots_none p : ~ In 46%N p -> dots p = 0.
Proof. unfold dots. induction p as [|c p IH]; intros H; [reflexivity|]. cbn [filter]. destruct (46 =? c)%N eqn:E; [apply N.eqb_eq in E; subst; exfalso; apply H; left; reflexivity|]. apply IH. intros Hi. apply H. right. exact Hi. Qed.

Lemma number_dot n : number n -> forall u c z, n = u ++ 46%N :: c :: z -> a_digit c = true.
Proof.
  induction 1 as [d Hd|d s n [Hd1 Hd2] Hs Hn IH]; intros u c z E.
  - exfalso. destruct Hd as [_ Hd]. rewrite Forall_forall in Hd. specialize (Hd 46%N). rewrite E, in_app_iff in Hd. discriminate (Hd (or_intror (or_introl eq_refl))).
  - symmetry in E. apply split_at in E; [|discriminate]. destruct E as [(z' & E & -> & Hz)|(u' & -> & E)].
    + exfalso. destruct z' as [|e z']; [congruence|]. injection E as <- _. rewrite Forall_forall in Hd2. specialize (Hd2 46%N). rewrite in_app_iff in Hd2. discriminate (Hd2 (or_intror (or_introl eq_refl))).
    + destruct u' as [|e u']; cbn [app] in E; injection E as -> E.
      * destruct (number_head n Hn) as (d0 & n' & -> & Hd0). injection E as -> _. exact Hd0.
      * exact (IH u' c z E).
Qed.
Lemma letters_no p c : Forall (fun c => a_letter c = true) p -> a_letter c = false -> ~ In c p.
Proof. intros H Hc Hi. rewrite Forall_forall in H. rewrite (H c Hi) in Hc. discriminate. Qed.
Lemma clitic_no c : In (map uncapital c) contracted -> ~ In 46%N c.
Proof. intros H. intros Hi. assert (E : forallb (fun d => negb (d =? 46)%N) c = true) by (apply (clitic_all (forallb (fun d => negb (d =? 46)%N))); [vm_compute; reflexivity|exact H]). rewrite forallb_forall in E. specialize (E _ Hi). discriminate. Qed.
Lemma core_dot c u d z : core_ok c -> ctext c = u ++ 46%N :: d :: z -> a_digit d = true.
Proof.
  destruct c as [p|n|p c|q p|key]; [| | |intros Hc E; exfalso; apply (hyph_no q p 46%N Hc); [reflexivity|discriminate|]; cbn [ctext] in E; rewrite E, in_app_iff; right; left; reflexivity|intros Hc E; exfalso; apply (key_no key 46%N Hc); [reflexivity|]; cbn [ctext] in E; rewrite E, in_app_iff; right; left; reflexivity]; cbn [core_ok SEnglish.core_ok ctext]; intros Hc E.
  - exfalso. apply (letters_no p 46%N); [apply Hc|reflexivity|]. rewrite E, in_app_iff. right. left. reflexivity.
  - exact (number_dot n Hc u d z E).
  - exfalso. assert (I0 : In 46%N (p ++ c)) by (rewrite E, in_app_iff; right; left; reflexivity). apply in_app_iff in I0. destruct I0 as [I0|I0]; [apply (letters_no p 46%N); [apply Hc|reflexivity|exact I0]|apply (clitic_no c); [apply Hc|exact I0]].
Qed.
Lemma core_last c u d : core_ok c -> ctext c = u ++ [d] -> an d = true.
Proof.
  destruct c as [p|n|p c|q p|key]; [unfold an| |unfold an|unfold an|]; cbn [core_ok SEnglish.core_ok ctext]; intros Hc E.
  - subst p. destruct Hc as [_ Hc]. apply Forall_app in Hc. destruct Hc as [_ Hc]. inversion Hc; subst. rewrite H1. reflexivity.
  - destruct (number_last n Hc) as (e & n' & E2 & He). rewrite E, rev_app_distr in E2. injection E2 as -> _. apply an_digit. exact He.
  - destruct Hc as (_ & _ & Hc). destruct (clitic_parts c Hc) as (uu & v & -> & _ & Hv & Hn & _). destruct v as [|e v _] using rev_ind; [congruence|]. rewrite app_comm_cons, !app_assoc in E. apply app_inj_tail in E. destruct E as [_ <-]. apply Forall_app in Hv. destruct Hv as [_ Hv]. inversion Hv; subst. rewrite H1. reflexivity.
  - destruct Hc as (_ & _ & [Hn Hc] & _). destruct p as [|e p _] using rev_ind; [congruence|]. rewrite app_assoc in E. apply app_inj_tail in E. destruct E as [_ <-]. apply Forall_app in Hc. destruct Hc as [_ Hc]. inversion Hc; subst. rewrite H1. reflexivity.
  - pose proof (key_an key Hc) as F. rewrite E in F. apply Forall_app in F. destruct F as [_ F]. inversion F; assumption.
Qed.
Lemma dots_next x u c v : base x -> mstr x = u ++ 46%N :: c :: v -> a_digit c = true.
Proof.
  destruct x as [co t|s]; cbn [base mstr].
  - intros (Hc & Ht & _) E. symmetry in E. apply split_at in E; [|discriminate]. destruct E as [(z' & E & E2 & Hz)|(u' & _ & E)].
    + destruct z' as [|e z']; [congruence|]. injection E as <- E. destruct z' as [|e z'].
      * exfalso. pose proof (core_last co u 46%N Hc E2) as F. discriminate F.
      * injection E as <- _. exact (core_dot co u c z' Hc E2).
    + exfalso. destruct t as [|m0|]; cbn [tstr] in E.
      * destruct u'; discriminate E.
      * destruct u' as [|e [|e2 u']]; discriminate E.
      * assert (F : In 46%N nsd) by (rewrite E, in_app_iff; right; left; reflexivity). cbn in F. repeat (destruct F as [F|F]; [discriminate F|]). exact F.
  - intros H E. exfalso. assert (B : forallb (fun s => (length s <=? 1) || negb (existsb (N.eqb 46%N) s)) SY = true) by (vm_compute; reflexivity). rewrite forallb_forall in B. specialize (B s H). apply orb_true_iff in B. destruct B as [B|B].
    + rewrite E, app_length in B. cbn [length] in B. apply Nat.leb_le in B. lia.
    + apply negb_true_iff in B. assert (F : existsb (N.eqb 46%N) s = true) by (apply mem_in; rewrite E, in_app_iff; right; left; reflexivity). congruence.
Qed.
Definition sd (k : nat) : rule := nth k re_token_split_dot no_rule.
Lemma sd0 x : base x -> apply_rule A (mstr x) (sd 0) = mstr x.
Proof.
  intros Hx. unfold apply_rule. apply sub_none; [reflexivity|]. intros p q E. destruct (match_at A (r_ic (sd 0)) (r_pat (sd 0)) (rev p ++ []) q) as [st|] eqn:EM; [|rewrite app_nil_r in EM; exact EM]. exfalso.
  destruct (mrel_lang _ _ _ _ _ (match_at_some _ _ _ _ _ _ EM)) as (w0 & Aw & _ & L). cbn [aft] in Aw. cbn [sd nth re_token_split_dot r_pat r_ic mk seqs lang] in L. destruct L as (w1 & w2 & -> & _ & (w3 & w4 & -> & (d & -> & Hd) & (e & -> & He))).
  assert (d = 46%N) by (apply (caseless_range A ascii_udb_ok false 46%N d eq_refl); unfold cset_match, ch, cc in Hd; cbn [cs_neg cs_items existsb] in Hd; rewrite xorb_false_l, orb_false_r in Hd; exact Hd). subst d.
  assert (F : a_digit e = true) by (apply (dots_next x (p ++ w1) e (aft st) Hx); rewrite E, Aw, <- !app_assoc; reflexivity). apply digit_in in F. cbn in F. repeat (destruct F as [<-|F]; [discriminate He|]). exact F.
Qed.
Definition fstop (x : mw) : str := match x with MC c (TMark m) => if (m =? 46)%N then ctext c ++ [32; 46]%N else mstr x | _ => mstr x end.
Lemma D_stop : forall d1 d2 s b a, In d1 DG -> In d2 DG -> sep s -> match_at A (r_ic (sd 1)) (r_pat (sd 1)) (d1 :: b) (s :: d2 :: a) = None.
Proof. intros d1 d2 s b a H1 H2 Hs. destruct a; (destruct Hs as [-> | ->]; cbn in H2; repeat (destruct H2 as [<-|H2]; [reflexivity|]); contradiction H2). Qed.
Lemma sd1 x : ok2 x -> apply_rule A (mstr x) (sd 1) = fstop x.
Proof.
  intros [Hx Hm]. unfold apply_rule. rewrite sub_sr. destruct x as [c t|s].
  - destruct Hx as (Hc & Ht & _). cbn [mstr]. rewrite (core_skip (r_ic (sd 1)) (r_pat (sd 1)) (r_rep (sd 1)) ltac:(vm_compute; reflexivity) D_stop c Hc).
    destruct t as [|m0|]; cbn [tstr fstop mstr].
    + rewrite sr_nil by reflexivity. reflexivity.
    + destruct Hm as [<-|[<-|[<-|[]]]]; cbn [N.eqb Pos.eqb]; [reflexivity|reflexivity|]. apply (f_equal (app (ctext c))). refine (eq_trans (sr_match A (r_ic (sd 1)) (r_pat (sd 1)) (r_rep (sd 1)) eq_refl (rev (ctext c) ++ []) [46%N] {| bef := 46%N :: rev (ctext c) ++ []; aft := []; caps := [] |} eq_refl) _). cbn [bef aft]. rewrite sr_nil by reflexivity. rewrite app_nil_r. unfold expand. cbn [sd nth re_token_split_dot r_rep mk flat_map]. unfold tl_, g. rewrite (matched_eq _ _ [46%N]) by reflexivity. reflexivity.
    + reflexivity.
  - destruct Hm as [<-|[<-|[<-|[]]]]; reflexivity.
Qed.
Lemma full_mrel r s st : fullmatch A true r s = Some st -> exists st', mrel A true r {| bef := []; aft := s; caps := [] |} st' /\ aft st' = [].
Proof. unfold fullmatch. intros H. apply m_some in H. destruct H as (st' & H & E). exists st'. split; [exact H|]. destruct (aft st'); [reflexivity|discriminate]. Qed.
Lemma full_lang r s st : fullmatch A true r s = Some st -> lang A true r s.
Proof. intros H. destruct (full_mrel _ _ _ H) as (st' & R & E). apply mrel_lang in R. destruct R as (w0 & Aw & _ & L). cbn [aft] in Aw. rewrite E, app_nil_r in Aw. rewrite Aw. exact L. Qed.
Lemma core_dots c : core_ok c -> (forall n, c = Num n -> ~ In 46%N n) -> dots (ctext c) = 0.
Proof.
  intros Hc Hn. apply dots_none. destruct c as [p|n|p c|q p|key]; [| | |apply hyph_no; [exact Hc|reflexivity|discriminate]|apply key_no; [exact Hc|reflexivity]]; cbn [core_ok SEnglish.core_ok ctext] in *.
  - apply letters_no; [apply Hc|reflexivity].
  - exact (Hn n eq_refl).
  - rewrite in_app_iff. intros [H|H]; [revert H; apply letters_no; [apply Hc|reflexivity]|revert H; apply clitic_no; apply Hc].
Qed.
Definition nosplit (s : str) : bool := existsb (fun p => match fullmatch A true p s with Some _ => true | None => false end) re_token_nosplit_dot.
Lemma nosplit_dot c : core_ok c -> (forall n, c = Num n -> ~ In 46%N n) -> nosplit (ctext c ++ [46%N]) = initial c.
Proof.
  intros Hc Hn. pose proof (core_dots c Hc Hn) as D. destruct (initial c) eqn:EI.
  - destruct c as [[|l [|]]|n|p c|q p|key]; try discriminate EI. cbn [ctext core_ok SEnglish.core_ok] in *. destruct Hc as [_ Hc]. inversion Hc as [|? ? Hl _]; subst. assert (I0 : In l (filter a_letter AN)) by (apply filter_In; split; [apply an_in; unfold an; rewrite Hl; reflexivity|exact Hl]). clear - I0. each I0.
  - unfold nosplit. assert (E : dots (ctext c ++ [46%N]) = 1) by (rewrite dots_app, D; reflexivity).
    assert (G : forall r, 2 <= mindots r -> match fullmatch A true r (ctext c ++ [46%N]) with Some _ => true | None => false end = false).
    { intros r Hr. destruct (fullmatch A true r (ctext c ++ [46%N])) as [st|] eqn:F; [|reflexivity]. apply full_lang in F. apply mindots_lang in F. lia. }
    cbn [re_token_nosplit_dot existsb]. apply orb_false_iff; split; [apply G; cbn; lia|]. apply orb_false_iff; split; [apply G; cbn; lia|]. apply orb_false_iff; split; [|apply orb_false_iff; split; [|apply orb_false_iff; split; [apply G; cbn; lia|apply orb_false_iff; split; [apply G; cbn; lia|reflexivity]]]].
    + destruct (fullmatch A true (Seq letter dot) (ctext c ++ [46%N])) as [st|] eqn:F; [|reflexivity]. exfalso. apply full_lang in F. destruct F as (y & z & E2 & (d & -> & Hd) & (e & -> & He)). change ([d] ++ [e]) with ([d] ++ [e]) in E2. apply app_inj_tail in E2. destruct E2 as [E2 _].
      destruct c as [p|n|p c|q p|key]; cbn [ctext core_ok SEnglish.core_ok] in *.
      * subst p. discriminate EI.
      * subst n. destruct (number_head [d] Hc) as (d0 & n' & E3 & H0). injection E3 as -> _. apply digit_in in H0. cbn in H0. repeat (destruct H0 as [<-|H0]; [discriminate Hd|]). exact H0.
      * destruct Hc as ([Hp _] & _ & Hcl). destruct p as [|e0 p]; [congruence|]. injection E2 as _ E2. destruct (clitic_parts c Hcl) as (uu & v & -> & _). destruct p, uu; discriminate E2.
      * destruct Hc as (Hq & HQ & _). destruct q as [|[|e0 w0] q]; [congruence|inversion HQ as [|? ? [[F _] _] _]; congruence|]. injection E2 as _ E2. destruct w0; discriminate E2.
      * destruct Hc as [n0 ->]. discriminate E2.
    + match goal with |- match ?f with _ => _ end = _ => destruct f as [st|] eqn:F end; [|reflexivity]. exfalso. apply full_mrel in F. destruct F as (st' & R & E2). cbn [seqs] in R. apply seq_inv in R. destruct R as (s1 & _ & R). apply seq_inv in R. destruct R as (s2 & _ & R). apply look_inv in R. destruct R as (_ & R1 & R2).
      destruct (R2 eq_refl) as (s3 & R3 & _). apply m_some in R3. destruct R3 as (s4 & R3 & _). apply grp_inv in R3. destruct R3 as (s5 & R3 & _). apply seq_inv in R3. destruct R3 as (s6 & R3 & _). apply chr_inv in R3. destruct R3 as (e & R3 & _). rewrite <- R1, E2 in R3. discriminate.
Qed.
Definition Fstop (x : mw) : list mw := match x with MC c (TMark m) => if (m =? 46)%N && negb (initial c) then [MC c TNone; MSym [46%N]] else [x] | _ => [x] end.
Lemma split_dots_word x : ok2 x -> split_dots A (mstr x) = map mstr (Fstop x).
Proof.
  intros Hx. pose proof Hx as [Hb Hm]. destruct (base_word _ Hb) as [H1 H2]. pose proof (split_ws_word (u_space A) _ H1 H2) as W. unfold split_dots. change (existsb _ re_token_nosplit_dot) with (nosplit (mstr x)).
  assert (R : fold_left (apply_rule A) re_token_split_dot (mstr x) = fstop x). { change re_token_split_dot with [sd 0; sd 1]. cbn [fold_left]. rewrite sd0 by exact Hb. apply sd1. exact Hx. }
  rewrite R. destruct x as [c t|s]; [|destruct (nosplit _); [reflexivity|exact W]]. destruct t as [|m0|]; [destruct (nosplit _); [reflexivity|exact W]| |destruct (nosplit _); [reflexivity|exact W]]. unfold fstop, Fstop. destruct (m0 =? 46)%N eqn:Em.
  - apply N.eqb_eq in Em. subst m0. destruct Hb as (Hc & _ & Hn). cbn [mstr tstr andb]. rewrite nosplit_dot; [|exact Hc|intros n ->; apply Hn; reflexivity]. destruct (initial c); [reflexivity|]. cbn [negb].
    etransitivity; [apply (words_core c [32%N; 46%N] Hc); intros d y Ey; injection Ey as <- _; reflexivity|]. reflexivity.
  - cbn [andb]. destruct (nosplit _); [reflexivity|exact W].
Qed.
Lemma rule_stops xs : Forall ok2 xs -> flat_map (split_dots A) (map mstr xs) = map mstr (flat_map Fstop xs).
Proof. induction 1 as [|x xs Hx _ IH]; [reflexivity|]. cbn [map flat_map]. rewrite IH, map_app, split_dots_word by exact Hx. reflexivity. Qed.
