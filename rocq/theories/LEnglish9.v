(** Proofs about the tokenizer on ordinary English text: the last rules and the whole tokenizer. *)
From Coq Require Import Ascii String.
From Coq Require Import List NArith ZArith Arith Bool Lia.
From Verif Require Import PyBase Regex MTokenizer STok SEnglish LBase LUdb LRegex LSub LTok LTokWords LAscii LRun LProtect LEnglish LEnglish2 LEnglish3 LEnglish4 LEnglish5 LEnglish6 LEnglish7 LEnglish8.
Import ListNotations.
Local Open Scope nat_scope.

Definition ok6 (x : mw) : Prop := base x /\ match x with MC (Short _ _) _ => False | MC c (TMark m) => m = 46%N /\ initial c = true | _ => True end.
Lemma contraction_ok xs : Forall ok5 xs -> Forall ok6 (flat_map Fcon xs).
Proof.
  induction 1 as [|x xs [Hx Hm] _ IH]; [constructor|]. cbn [flat_map]. apply Forall_app. split; [|exact IH]. destruct x as [[p|n|p c|q p|key] t|s].
  - constructor; [|constructor]. split; [exact Hx|destruct t; exact Hm].
  - constructor; [|constructor]. split; [exact Hx|destruct t; exact Hm].
  - destruct Hx as ((Hp & _ & Hc) & _). constructor; [|constructor; [|constructor]].
    + split; [|exact I]. split; [exact Hp|]. split; exact I.
    + split; [|exact I]. cbn [base]. apply in_or_app. right. apply clitic_in. exact Hc.
  - constructor; [|constructor]. split; [exact Hx|destruct t; exact Hm].
  - constructor; [|constructor]. split; [exact Hx|destruct t; exact Hm].
  - constructor; [|constructor]. split; [exact Hx|exact I].
Qed.
Lemma ok6_base x : ok6 x -> base x.
Proof. intros [H _]. exact H. Qed.
(** no word starts with a star or a hyphen *)
Definition bullet (c : char) : Prop := In c [42; 45]%N.
Lemma base_head x c w0 : base x -> mstr x = c :: w0 -> ~ bullet c.
Proof.
  intros Hx E HB. destruct x as [co t|s]; cbn [base mstr] in *.
  - destruct Hx as (Hc & _). destruct (core_head co Hc) as (d & r & E2 & Hd). rewrite E2 in E. injection E as -> _. destruct HB as [<-|[<-|[]]]; discriminate Hd.
  - assert (B : forallb (fun s => match s with c :: _ => negb (existsb (N.eqb c) [42; 45]%N) | [] => true end) SY = true) by (vm_compute; reflexivity). rewrite forallb_forall in B. specialize (B s Hx). rewrite E in B. destruct HB as [<-|[<-|[]]]; discriminate B.
Qed.
Lemma bullets_inv b c a st : match_at A (r_ic (sg 25)) (r_pat (sg 25)) b (c :: a) = Some st -> u_space A c = true /\ exists d a', a = d :: a' /\ bullet d.
Proof.
  intros M. apply match_at_some in M. cbn [sg nth re_segment_off r_pat r_ic mk seqs] in M. apply seq_inv in M. destruct M as (s1 & M1 & M). apply chr_inv in M1. destruct M1 as (s & A1 & _ & _ & H1). cbn [aft] in A1. injection A1 as -> ->.
  apply seq_inv in M. destruct M as (s2 & G & _). apply grp_inv in G. destruct G as (s3 & G & _). apply chr_inv in G. destruct G as (d & A2 & _ & _ & H2). split; [apply (spc false); exact H1|]. exists d, (aft s3). split; [exact A2|].
  unfold cset_match in H2. cbn [cs_neg cls cs_items one lit existsb map] in H2. rewrite xorb_false_l in H2. apply orb_true_iff in H2. destruct H2 as [H2|H2]; [left; symmetry; exact (caseless_range A ascii_udb_ok false 42%N d eq_refl H2)|right; left]. apply orb_true_iff in H2. destruct H2 as [H2|H2]; [|discriminate H2]. symmetry. exact (caseless_range A ascii_udb_ok false 45%N d eq_refl H2).
Qed.
Lemma rule_bullets a xs : words a = map mstr xs -> Forall ok6 xs -> words (apply_rule A a (sg 25)) = map mstr xs.
Proof.
  intros Ha HO. rewrite <- (flat_id xs). apply (sub_words A (r_ic (sg 25)) (r_pat (sg 25)) (r_rep (sg 25)) eq_refl mstr mstr (fun x => [x]) ok6 (fun c => ~ bullet c)); [| | | | |exact Ha|exact HO].
  - intros x c w0 Hx E. exact (base_head x c w0 (ok6_base x Hx) E).
  - intros c Hc [<-|[<-|[]]]; discriminate Hc.
  - intros b c a0 Hc HQ. destruct (match_at A (r_ic (sg 25)) (r_pat (sg 25)) b (c :: a0)) as [st|] eqn:E; [|reflexivity]. exfalso. apply bullets_inv in E. destruct E as (_ & d & a' & -> & Hd). exact (HQ d a' eq_refl Hd).
  - intros b x rest Hx Hb Hr. apply sr_skips; [reflexivity|]. intros u z E Hz. destruct z as [|c z]; [congruence|]. cbn [app]. destruct (match_at A (r_ic (sg 25)) (r_pat (sg 25)) (rev u ++ b) (c :: z ++ rest)) as [st|] eqn:EM; [|reflexivity]. exfalso. apply bullets_inv in EM. destruct EM as (Hc & _).
    destruct (base_word x (ok6_base x Hx)) as [_ W]. rewrite E in W. apply Forall_app in W. destruct W as [_ W]. inversion W; congruence.
  - intros x Hx. destruct (base_word x (ok6_base x Hx)) as [H1 H2]. apply split_ws_word; assumption.
Qed.

(** *** segmentation *)
Definition Fseg (xs : list mw) : list mw := flat_map Fcon (flat_map Fcomma2 (flat_map Fcomma1 (flat_map Fcolon (flat_map Fcan xs)))).
Lemma seg_rules : re_segment_off = sg 0 :: firstn 10 (List.tl re_segment_off) ++ [sg 11; sg 12; sg 13; sg 14; sg 15] ++ [sg 16; sg 17] ++ [sg 18; sg 19; sg 20; sg 21; sg 22; sg 23; sg 24; sg 25].
Proof. vm_compute. reflexivity. Qed.
Lemma fold_cons {X Y} (f : X -> Y -> X) y l x : fold_left f (y :: l) x = fold_left f l (f x y).
Proof. reflexivity. Qed.
Lemma fold_nil {X Y} (f : X -> Y -> X) x : fold_left f [] x = x.
Proof. reflexivity. Qed.
Lemma restore_rules : re_restore = rs 0 :: [rs 1; rs 2; rs 3; rs 4].
Proof. vm_compute. reflexivity. Qed.
Lemma reattach_rules : re_reattach = [ra 0; ra 1; ra 2] ++ [ra 3].
Proof. vm_compute. reflexivity. Qed.
Lemma segment_words a xs : words a = map mstr xs -> Forall ok3 xs -> words (fold_left (apply_rule A) re_segment_off a) = map mstr (Fseg xs) /\ Forall ok6 (Fseg xs).
Proof.
  intros Ha HO. rewrite seg_rules. rewrite fold_cons, !fold_left_app.
  pose proof (rule_cannot a xs Ha HO) as H0. pose proof (cannot_ok xs HO) as O0. rewrite (symbols_id (firstn 10 (List.tl re_segment_off)) _ _ ltac:(vm_compute; reflexivity) H0 (Forall_impl _ ok3_base O0)). rewrite !(fold_cons (apply_rule A) (sg 11)), (fold_cons (apply_rule A) (sg 12)), (fold_cons (apply_rule A) (sg 13)), (fold_cons (apply_rule A) (sg 14)), (fold_cons (apply_rule A) (sg 15)), (fold_nil (apply_rule A)).
  pose proof (rule_colon1 _ _ H0 O0) as C1. pose proof (colon1_ok _ O0) as OC. pose proof (rule_colon2 _ _ C1 OC) as C2.
  pose proof (rule_colon3 (sg 13) _ _ ltac:(vm_compute; reflexivity) eq_refl eq_refl ltac:(vm_compute; reflexivity) ltac:(vm_compute; reflexivity) C2 OC) as C3. pose proof (rule_colon3 (sg 14) _ _ ltac:(vm_compute; reflexivity) eq_refl eq_refl ltac:(vm_compute; reflexivity) ltac:(vm_compute; reflexivity) C3 OC) as C4.
  pose proof (rule_colon3 (sg 15) _ _ ltac:(vm_compute; reflexivity) eq_refl eq_refl ltac:(vm_compute; reflexivity) ltac:(vm_compute; reflexivity) C4 OC) as C5. rewrite (symbols_id [sg 16; sg 17] _ _ ltac:(vm_compute; reflexivity) C5 (Forall_impl _ (fun x Hx => proj1 Hx) OC)). rewrite !fold_cons, fold_nil.
  pose proof (rule_comma1 _ _ C5 OC) as H1. pose proof (comma1_ok _ OC) as O1. pose proof (rule_comma2 _ _ H1 O1) as H2. pose proof (comma2_ok _ O1) as O2.
  pose proof (rule_q1 _ _ H2 O2) as H3. pose proof (rule_q2 _ _ H3 O2) as H4. pose proof (rule_q3 _ _ H4 O2) as H5. pose proof (rule_q4 _ _ H5 O2) as H6. pose proof (rule_contraction _ _ H6 O2) as H7. pose proof (contraction_ok _ O2) as O7.
  pose proof (rule_bullets _ _ H7 O7) as H8. split; [exact H8|exact O7].
Qed.

(** *** full stops are put back *)
Definition frest (x : mw) : str := match x with MC c TKept => ctext c ++ [46%N] | _ => mstr x end.
Definition Frest (x : mw) : list mw := match x with MC c TKept => [MC c (TMark 46%N)] | _ => [x] end.
Definition not95 (c : char) : bool := negb (c =? 95)%N.
Lemma core_no95 c : core_ok c -> (forall k, c <> Web k) -> ~ In 95%N (ctext c).
Proof.
  intros Hc HW. revert Hc. destruct c as [p|n|p c|q p|key]; [| | |intros Hc; apply hyph_no; [exact Hc|reflexivity|discriminate]|destruct (HW key eq_refl)]; cbn [core_ok SEnglish.core_ok ctext]; intros Hc.
  - apply letters_no; [apply Hc|reflexivity].
  - clear - Hc. assert (D : forall d, digits d -> ~ In 95%N d) by (intros d [_ H] Hi; rewrite Forall_forall in H; specialize (H _ Hi); discriminate H).
    induction Hc as [d Hd|d s n Hd Hs Hn IH]; [auto|]. rewrite in_app_iff. intros [H|[H|H]]; [exact (D d Hd H)| |exact (IH H)]. destruct Hs as [-> | ->]; discriminate.
  - rewrite in_app_iff. intros [H|H]; [revert H; apply letters_no; [apply Hc|reflexivity]|]. destruct Hc as (_ & _ & Hc).
    assert (E : forallb not95 c = true) by (apply (clitic_all (forallb not95)); [vm_compute; reflexivity|exact Hc]). rewrite forallb_forall in E. specialize (E _ H). discriminate.
Qed.
(** what comes after an underscore of a key *)
Definition FOLLOW : list char := 80%N :: 95%N :: DG ++ SP ++ lit ",!?;:.".
Definition follow (y : str) : Prop := y = [] \/ exists d r, y = d :: r /\ In d FOLLOW.
Lemma follow_sp y : sfirst y -> follow y.
Proof. intros H. destruct y as [|d r]; [left; reflexivity|]. right. exists d, r. split; [reflexivity|]. specialize (H d r eq_refl). apply space_in in H. unfold FOLLOW. do 2 right. apply in_or_app. right. apply in_or_app. left. exact H. Qed.
Lemma follow_tail t y : tl_ok t -> sfirst y -> follow (tstr t ++ y).
Proof.
  intros Ht Hy. destruct t as [|m0|]; cbn [tstr app]; [apply follow_sp; exact Hy| |right; exists 95%N; eexists; split; [reflexivity|right; left; reflexivity]]. right. exists m0, y. split; [reflexivity|]. unfold FOLLOW. do 2 right. apply in_or_app. right. apply in_or_app. right. exact Ht.
Qed.
Lemma core_under c u z y : core_ok c -> ctext c = u ++ 95%N :: z -> follow y -> follow (z ++ y).
Proof.
  intros Hc E Hy. assert (HW : exists k, c = Web k). { destruct c as [p|n|p c|q p|key]; [| | | |eauto]; exfalso; eapply core_no95; try exact Hc; try discriminate; rewrite E, in_app_iff; right; left; reflexivity. }
  destruct HW as [k ->]. destruct Hc as [n ->]. cbn [ctext] in E. destruct u as [|e u].
  - injection E as <-. right. exists 80%N. eexists. split; [reflexivity|]. left. reflexivity.
  - apply key_inner in E; [|discriminate]. destruct E as [->|(d & r & -> & Hd)]; [exact Hy|]. right. exists d, (r ++ y). split; [reflexivity|]. unfold FOLLOW. do 2 right. apply in_or_app. left. apply digit_in. unfold a_digit. rewrite andb_true_iff, !N.leb_le. lia.
Qed.
Lemma sym_no95 s : In s SY -> ~ In 95%N s.
Proof. intros Hx H. assert (E : forallb (forallb not95) SY = true) by (vm_compute; reflexivity). rewrite forallb_forall in E. specialize (E _ Hx). rewrite forallb_forall in E. specialize (E _ H). discriminate. Qed.
Lemma under_nil ru b : In ru re_restore -> match_at A (r_ic ru) (r_pat ru) b [95%N] = None.
Proof. intros H. repeat destruct H as [<-|H]; try reflexivity. contradiction. Qed.
Lemma under_cons ru b d a : In ru re_restore -> In d FOLLOW -> match_at A (r_ic ru) (r_pat ru) b (95%N :: d :: a) = None.
Proof. intros H Hd. repeat destruct H as [<-|H]; try contradiction; each Hd. Qed.
Lemma under_none ru b y : In ru re_restore -> follow y -> match_at A (r_ic ru) (r_pat ru) b (95%N :: y) = None.
Proof. intros H [->|(d & r & -> & Hd)]; [apply under_nil; exact H|apply under_cons; assumption]. Qed.
Lemma restore_quiet ru : In ru re_restore -> quiet (r_ic ru) (r_pat ru) not95 = true.
Proof. intros H. repeat destruct H as [<-|H]; try (vm_compute; reflexivity). contradiction. Qed.
Lemma restore_null ru : In ru re_restore -> nullable (r_pat ru) = false.
Proof. intros H. repeat destruct H as [<-|H]; try reflexivity. contradiction. Qed.
(** no rule that puts symbols back does anything in a core *)
Lemma restore_core ru c b y u z : In ru re_restore -> core_ok c -> ctext c = u ++ z -> z <> [] -> follow y -> match_at A (r_ic ru) (r_pat ru) (rev u ++ b) (z ++ y) = None.
Proof.
  intros H Hc E Hz Hy. destruct z as [|d z]; [congruence|]. cbn [app]. destruct (N.eq_dec d 95) as [->|Hd].
  - apply under_none; [exact H|]. eapply core_under; [exact Hc|exact E|exact Hy].
  - pose proof (core_wch c Hc) as W. rewrite E in W. apply Forall_app in W. destruct W as [_ W]. inversion W as [|? ? W1 _]; subst. apply (quiet_none _ _ not95); [apply restore_quiet; exact H|apply wch_lt; exact W1|]. unfold not95. apply negb_true_iff, N.eqb_neq. exact Hd.
Qed.
Lemma restore_other ru p b y u z : In ru re_restore -> Forall (fun c => wch c = true) p -> ~ In 95%N p -> p = u ++ z -> z <> [] -> match_at A (r_ic ru) (r_pat ru) (rev u ++ b) (z ++ y) = None.
Proof.
  intros H Hp H95 -> Hz. destruct z as [|d z]; [congruence|]. cbn [app]. apply Forall_app in Hp. destruct Hp as [_ Hp]. inversion Hp as [|? ? W1 _]; subst. apply (quiet_none _ _ not95); [apply restore_quiet; exact H|apply wch_lt; exact W1|]. unfold not95. apply negb_true_iff, N.eqb_neq. intros ->. apply H95. rewrite in_app_iff. right. left. reflexivity.
Qed.
Lemma restore_word ru x b rest u z : In ru re_restore -> base x -> (forall c, x <> MC c TKept) -> sfirst rest -> mstr x = u ++ z -> z <> [] -> match_at A (r_ic ru) (r_pat ru) (rev u ++ b) (z ++ rest) = None.
Proof.
  intros H Hx HK Hr E Hz. destruct x as [c t|s].
  - destruct Hx as (Hc & Ht & _). cbn [mstr] in E. symmetry in E. apply split_at in E; [|exact Hz]. destruct E as [(z' & E & E2 & Hz')|(u' & -> & E)].
    + rewrite E, <- app_assoc. apply (restore_core ru c); [exact H|exact Hc|exact E2|exact Hz'|]. apply follow_tail; assumption.
    + rewrite rev_app_distr, <- app_assoc. apply (restore_other ru (tstr t)); [exact H| | |exact E|exact Hz].
      * destruct t as [|m0|]; [constructor| |destruct (HK c eq_refl)]. constructor; [|constructor]. cbn in Ht. repeat destruct Ht as [<-|Ht]; try reflexivity. contradiction.
      * destruct t as [|m0|]; [auto| |destruct (HK c eq_refl)]. intros [->|[]]. cbn in Ht. repeat destruct Ht as [Ht|Ht]; try discriminate Ht. contradiction.
  - apply (restore_other ru s); [exact H|apply (base_wch (MSym s) Hx)|apply sym_no95; exact Hx|exact E|exact Hz].
Qed.
Notation srs := (sr A (r_ic (rs 0)) (r_pat (rs 0)) (r_rep (rs 0))).
Lemma rule_restore a xs : words a = map mstr xs -> Forall ok6 xs -> words (apply_rule A a (rs 0)) = map mstr (flat_map Frest xs).
Proof.
  apply (step (rs 0) ok6 eq_refl ltac:(vm_compute; reflexivity) frest Frest).
  - intros b x rest [Hx _] Hb Hr. assert (S : (forall c, x <> MC c TKept) -> srs b (mstr x ++ rest) = mstr x ++ srs (rev (mstr x) ++ b) rest) by (intros HK; apply sr_skips; [reflexivity|]; intros u z E Hz; apply (restore_word (rs 0) x); [left; reflexivity|exact Hx|exact HK|exact Hr|exact E|exact Hz]).
    destruct x as [c t|s]; [|apply S; discriminate]. destruct t as [|m0|]; try (apply S; discriminate). destruct Hx as (Hc & _). cbn [mstr frest tstr]. rewrite <- app_assoc. rewrite (sr_skips A (r_ic (rs 0)) (r_pat (rs 0)) (r_rep (rs 0)) eq_refl (ctext c)); [|intros u z E Hz; apply (restore_core (rs 0) c); [left; reflexivity|exact Hc|exact E|exact Hz|apply (follow_tail TKept); [exact I|exact Hr]]].
    rewrite rev_app_distr, <- app_assoc. rewrite <- app_assoc. f_equal.
    refine (eq_trans (sr_match A (r_ic (rs 0)) (r_pat (rs 0)) (r_rep (rs 0)) eq_refl (rev (ctext c) ++ b) (nsd ++ rest) {| bef := rev nsd ++ rev (ctext c) ++ b; aft := rest; caps := [] |} eq_refl) _). reflexivity.
  - intros x [Hx _]. destruct (base_word _ Hx) as [H1 H2]. pose proof (split_ws_word (u_space A) _ H1 H2) as W. unfold frest, Frest. destruct x as [c t|s]; [|exact W]. destruct t as [|m0|]; try exact W. destruct Hx as (Hc & _). cbn [map mstr tstr]. apply split_ws_word.
    + destruct (ctext c); discriminate.
    + apply Forall_app. split; [eapply Forall_impl; [|apply core_wch; exact Hc]; intros d; apply wch_space|]. constructor; [reflexivity|constructor].
Qed.
Definition ok7 (x : mw) : Prop := base x /\ forall c, x <> MC c TKept.
Lemma restore_ok xs : Forall ok6 xs -> Forall ok7 (flat_map Frest xs).
Proof.
  induction 1 as [|x xs [Hx Hm] _ IH]; [constructor|]. cbn [flat_map]. apply Forall_app. split; [|exact IH]. destruct x as [c t|s]; [|constructor; [split; [exact Hx|discriminate]|constructor]].
  destruct t as [|m0|]; try (constructor; [split; [exact Hx|discriminate]|constructor]). cbn [Frest]. constructor; [|constructor]. split; [|discriminate]. destruct Hx as (Hc & _ & Hk). split; [exact Hc|]. split; [cbn; tauto|]. destruct c; auto.
Qed.
Lemma ok7_base x : ok7 x -> base x.
Proof. intros [H _]. exact H. Qed.
Lemma rule_others k a xs : In (rs k) re_restore -> forallb (fun c => negb (firstb A (r_ic (rs k)) (r_pat (rs k)) c)) SP = true -> words a = map mstr xs -> Forall ok7 xs -> words (apply_rule A a (rs k)) = map mstr xs.
Proof.
  intros H HS. apply step_id; [exact ok7_base|apply restore_null; exact H|exact HS|]. intros b x rest u z [Hx HK] Hb Hr E Hz. apply (restore_word (rs k) x); assumption.
Qed.
Lemma rule_reattach_dots a xs : words a = map mstr xs -> Forall ok7 xs -> words (apply_rule A a (ra 3)) = map mstr xs.
Proof.
  apply step_id; [exact ok7_base|reflexivity|vm_compute; reflexivity|]. intros b x rest u z [Hx _] Hb Hr E Hz. destruct z as [|c z]; [congruence|]. cbn [app].
  destruct (match_at A (r_ic (ra 3)) (r_pat (ra 3)) (rev u ++ b) (c :: z ++ rest)) as [st|] eqn:EM; [|reflexivity]. exfalso. apply match_at_some in EM. cbn [ra nth re_reattach r_pat r_ic mk seqs] in EM.
  assert (D : forall d, cset_match A false (cc 46) d = true -> d = 46%N). { intros d H. apply (caseless_range A ascii_udb_ok false 46%N d eq_refl). unfold cset_match, cc in H. cbn [cs_neg cs_items existsb] in H. rewrite xorb_false_l, orb_false_r in H. exact H. }
  apply seq_inv in EM. destruct EM as (s1 & G & _). apply grp_inv in G. destruct G as (s2 & G & _). unfold two_plus in G. apply seq_inv in G. destruct G as (s3 & G1 & G). apply seq_inv in G. destruct G as (s4 & G2 & _).
  apply chr_inv in G1. destruct G1 as (d1 & A1 & _ & _ & H1). apply chr_inv in G2. destruct G2 as (d2 & A2 & _ & _ & H2). apply D in H1, H2. subst d1 d2. cbn [aft] in A1. injection A1 as -> A1. rewrite A2 in A1.
  destruct z as [|d z]; cbn [app] in A1.
  - specialize (Hr _ _ A1). discriminate Hr.
  - injection A1 as -> _. pose proof (dots_next x u 46%N z Hx E) as F. discriminate F.
Qed.
Lemma must_id l rules a xs (P : mw -> Prop) : forallb caseless l = true -> forallb (fun c => negb (u_space A c)) l = true -> forallb (fun ru => mustb l (r_pat ru)) rules = true -> words a = map mstr xs -> Forall P xs ->
  (forall x c, P x -> In c (mstr x) -> ~ In c l) -> fold_left (apply_rule A) rules a = a.
Proof.
  intros H1 H2 H3 Ha HP HC. induction rules as [|ru rules IH]; [reflexivity|]. cbn [forallb] in H3. apply andb_true_iff in H3. destruct H3 as [H3 H4]. cbn [fold_left]. rewrite (must_words l ru a xs P) by assumption. apply IH. exact H4.
Qed.
(** *** from the always-split marks on *)
Definition Fall (xs : list mw) : list mw := flat_map Frest (Fseg (flat_map Fstop (flat_map Falways xs))).
Lemma after_protect a xs : words a = map mstr xs -> Forall ok1 xs ->
  words (fold_left (apply_rule A) re_reattach (fold_left (apply_rule A) re_restore (join [32%N] (words (fold_left (apply_rule A) re_segment_off
    (join [32%N] (flat_map (split_dots A) (words (apply_rule A a re_always_split)))))))) ) = map mstr (Fall xs).
Proof.
  intros Ha HO. pose proof (rule_always a xs Ha HO) as H1. pose proof (always_ok xs HO) as O1. rewrite H1. rewrite (rule_stops _ O1). pose proof (stops_ok _ O1) as O2.
  assert (H2 : words (join [32%N] (map mstr (flat_map Fstop (flat_map Falways xs)))) = map mstr (flat_map Fstop (flat_map Falways xs))) by (apply words_join; eapply Forall_impl; [|exact O2]; exact ok3_base).
  destruct (segment_words _ _ H2 O2) as [H3 O3]. rewrite H3.
  assert (H4 : words (join [32%N] (map mstr (Fseg (flat_map Fstop (flat_map Falways xs))))) = map mstr (Fseg (flat_map Fstop (flat_map Falways xs)))) by (apply words_join; eapply Forall_impl; [|exact O3]; exact ok6_base).
  pose proof (rule_restore _ _ H4 O3) as H5. pose proof (restore_ok _ O3) as O5. fold (Fall xs) in H5, O5.
  rewrite restore_rules, fold_cons.
  rewrite !fold_cons, fold_nil.
  pose proof (rule_others 1 _ _ ltac:(cbn; tauto) ltac:(vm_compute; reflexivity) H5 O5) as H6. pose proof (rule_others 2 _ _ ltac:(cbn; tauto) ltac:(vm_compute; reflexivity) H6 O5) as H7. pose proof (rule_others 3 _ _ ltac:(cbn; tauto) ltac:(vm_compute; reflexivity) H7 O5) as H8. pose proof (rule_others 4 _ _ ltac:(cbn; tauto) ltac:(vm_compute; reflexivity) H8 O5) as H9.
  rewrite reattach_rules, fold_left_app. rewrite (must_id [38%N] [ra 0; ra 1; ra 2] _ (Fall xs) ok7); [|reflexivity|reflexivity|reflexivity|exact H9|exact O5|].
  - rewrite fold_cons, fold_nil. exact (rule_reattach_dots _ _ H9 O5).
  - intros x c [Hx _] Hc [<-|[]]. pose proof (base_wch x Hx) as W. rewrite Forall_forall in W. specialize (W _ Hc). discriminate W.
Qed.
