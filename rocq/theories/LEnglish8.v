(** Proofs about the tokenizer on ordinary English text: quotes, contractions, and the last rules. *)
From Coq Require Import Ascii String.
From Coq Require Import List NArith ZArith Arith Bool Lia.
From Verif Require Import PyBase Regex MTokenizer STok SEnglish LBase LUdb LRegex LSub LTok LTokWords LRun LEnglish LEnglish2 LEnglish3 LEnglish4 LEnglish5 LEnglish6 LEnglish7.
Import ListNotations.
Local Open Scope nat_scope.

Lemma ok5_base x : ok5 x -> base x.
Proof. intros [H _]. exact H. Qed.
Lemma c39 ic d : cset_match A ic (cc 39) d = true -> d = 39%N.
Proof. intros H. apply (caseless_range A ascii_udb_ok ic 39%N d eq_refl). unfold cset_match, cc in H. cbn [cs_neg cs_items existsb] in H. rewrite xorb_false_l, orb_false_r in H. exact H. Qed.
Lemma spc ic d : cset_match A ic (cls [CSpace]) d = true -> u_space A d = true.
Proof. unfold cset_match, cls. cbn [cs_neg cs_items existsb citem_match]. rewrite xorb_false_l, orb_false_r. auto. Qed.
(** the quotes of an ordinary text are those of the contracted words *)
Lemma quote_in x u z : ok5 x -> mstr x = u ++ 39%N :: z -> Forall (fun c => a_letter c = true) z /\ z <> [] /\ length z <= 2 /\ u <> [].
Proof.
  intros [Hx Hm] E. assert (I0 : In 39%N (mstr x)) by (rewrite E, in_app_iff; right; left; reflexivity). destruct x as [c t|s].
  - destruct Hx as (Hc & Ht & Hk). destruct c as [p|n|p c|q p|key].
    + exfalso. cbn [mstr ctext core_ok SEnglish.core_ok] in *. apply in_app_iff in I0. destruct I0 as [I0|I0]; [revert I0; apply letters_no; [apply Hc|reflexivity]|]. destruct t as [|m0|]; [contradiction| |cbn in I0; repeat destruct I0 as [I0|I0]; try discriminate I0; contradiction]. destruct Hm as [-> _]. destruct I0 as [I0|[]]. discriminate I0.
    + exfalso. cbn [mstr ctext core_ok SEnglish.core_ok] in *. apply in_app_iff in I0. destruct I0 as [I0|I0]; [revert I0; apply no39_num; exact Hc|]. destruct t as [|m0|]; [contradiction| |cbn in I0; repeat destruct I0 as [I0|I0]; try discriminate I0; contradiction]. destruct Hm as [-> _]. destruct I0 as [I0|[]]. discriminate I0.
    + destruct t as [|m0|]; [|destruct Hm as [_ F]; discriminate F|contradiction]. cbn [mstr ctext core_ok SEnglish.core_ok tstr] in *. rewrite app_nil_r in E. destruct Hc as ([Hn Hp] & _ & Hc). destruct (clitic_parts c Hc) as (uu & v & Ec & Hu & Hv & Hvn & _).
      assert (LV : (length c <=? 3) = true) by (apply (clitic_all (fun c => length c <=? 3)); [vm_compute; reflexivity|exact Hc]). apply Nat.leb_le in LV.
      rewrite Ec, app_assoc in E. symmetry in E. apply split_at in E; [|discriminate]. destruct E as [(z' & E & E2 & Hz)|(u' & -> & E)].
      * exfalso. destruct z' as [|e z']; [congruence|]. injection E as <- _. assert (F : In 39%N (p ++ uu)) by (rewrite E2, in_app_iff; right; left; reflexivity). revert F. apply letters_no; [apply Forall_app; auto|reflexivity].
      * destruct u' as [|e u']; cbn [app] in E; [injection E as E|injection E as <- E].
        -- subst z. split; [exact Hv|]. split; [exact Hvn|]. rewrite Ec, app_length in LV. cbn [length] in LV. split; [lia|]. destruct p; [congruence|discriminate].
        -- exfalso. assert (F : In 39%N v) by (rewrite E, in_app_iff; right; left; reflexivity). revert F. apply letters_no; [exact Hv|reflexivity].
    + exfalso. cbn [mstr ctext] in *. apply in_app_iff in I0. destruct I0 as [I0|I0]; [revert I0; apply hyph_no; [exact Hc|reflexivity|discriminate]|]. destruct t as [|m0|]; [contradiction| |cbn in I0; repeat destruct I0 as [I0|I0]; try discriminate I0; contradiction]. destruct Hm as [-> _]. destruct I0 as [I0|[]]. discriminate I0.
    + exfalso. cbn [mstr ctext] in *. apply in_app_iff in I0. destruct I0 as [I0|I0]; [revert I0; apply key_no; [exact Hc|reflexivity]|]. destruct t as [|m0|]; [contradiction| |cbn in I0; repeat destruct I0 as [I0|I0]; try discriminate I0; contradiction]. destruct Hm as [-> _]. destruct I0 as [I0|[]]. discriminate I0.
  - exfalso. cbn [mstr] in I0. destruct Hm as [<-|[<-|[<-|[<-|[<-|[<-|[]]]]]]]; destruct I0 as [I0|[]]; discriminate I0.
Qed.
Lemma ok5_head x c w0 : ok5 x -> mstr x = c :: w0 -> c <> 39%N.
Proof. intros Hx E ->. destruct (quote_in x [] w0 Hx E) as (_ & _ & _ & H). congruence. Qed.

(** a quote after a space or at the start *)
Section Open.
  Context (ru : rule) (R : re) (HP : r_pat ru = Seq (Grp 1 (Alt Bol sp)) (Seq (ch 39) R)).
  Lemma open_inv b c a st : match_at A (r_ic ru) (r_pat ru) b (c :: a) = Some st -> (b = [] /\ c = 39%N) \/ (u_space A c = true /\ exists a', a = 39%N :: a').
  Proof.
    intros M. apply match_at_some in M. rewrite HP in M. apply seq_inv in M. destruct M as (s1 & G & M). apply seq_inv in M. destruct M as (s2 & M & _). apply chr_inv in M. destruct M as (q & Aq & _ & _ & Hq). apply c39 in Hq. subst q.
    apply grp_inv in G. destruct G as (s3 & G & ->). cbn [aft] in Aq. apply alt_inv in G. destruct G as [G|G].
    - left. inversion G; subst. cbn [aft bef] in *. injection Aq as -> _. auto.
    - right. apply chr_inv in G. destruct G as (s & As & _ & _ & Hs). cbn [aft] in As. injection As as -> ->. rewrite Aq. split; [apply (spc (r_ic ru)); exact Hs|eauto].
  Qed.
  Lemma rule_open a xs : nullable (r_pat ru) = false -> words a = map mstr xs -> Forall ok5 xs -> words (apply_rule A a ru) = map mstr xs.
  Proof.
    intros HN0 Ha HO. rewrite <- (flat_id xs). apply (sub_words A (r_ic ru) (r_pat ru) (r_rep ru) HN0 mstr mstr (fun x => [x]) ok5 (fun c => c <> 39%N)); [| | | | |exact Ha|exact HO].
    - intros x c w0 Hx E. exact (ok5_head x c w0 Hx E).
    - intros c Hc ->. discriminate Hc.
    - intros b c a0 Hc HQ. destruct (match_at A (r_ic ru) (r_pat ru) b (c :: a0)) as [st|] eqn:E; [|reflexivity]. exfalso. apply open_inv in E. destruct E as [[_ ->]|(_ & a' & ->)]; [discriminate Hc|]. exact (HQ 39%N a' eq_refl eq_refl).
    - intros b x rest Hx Hb Hr. apply sr_skips; [exact HN0|]. intros u z E Hz. destruct z as [|c z]; [congruence|]. cbn [app]. destruct (match_at A (r_ic ru) (r_pat ru) (rev u ++ b) (c :: z ++ rest)) as [st|] eqn:EM; [|reflexivity]. exfalso. apply open_inv in EM. destruct EM as [[E1 ->]|(Hc & _)].
      + assert (u = []) by (destruct u as [|d u]; [reflexivity|]; exfalso; cbn [rev] in E1; destruct (rev u); discriminate E1). subst u. exact (ok5_head x 39%N z Hx E eq_refl).
      + destruct (base_word x (ok5_base x Hx)) as [_ W]. rewrite E in W. apply Forall_app in W. destruct W as [_ W]. inversion W; congruence.
    - intros x Hx. destruct (base_word x (ok5_base x Hx)) as [H1 H2]. apply split_ws_word; assumption.
  Qed.
End Open.
Lemma rule_q1 a xs : words a = map mstr xs -> Forall ok5 xs -> words (apply_rule A a (sg 20)) = map mstr xs.
Proof. apply (rule_open (sg 20) (Look false (ch 115)) eq_refl). reflexivity. Qed.
Lemma rule_q4 a xs : words a = map mstr xs -> Forall ok5 xs -> words (apply_rule A a (sg 23)) = map mstr xs.
Proof. apply (rule_open (sg 23) (Look true (Seq (ch 115) wd)) eq_refl). reflexivity. Qed.
Lemma space_or_end ic st st' : mrel A ic (Alt sp Eol) st st' -> sfirst (aft st).
Proof.
  intros H. apply alt_inv in H. destruct H as [H|H].
  - apply chr_inv in H. destruct H as (c & E & _ & _ & Hc). intros d a' E2. rewrite E in E2. injection E2 as -> _. apply (spc ic). exact Hc.
  - inversion H; subst. intros d a' E2. match goal with H : aft _ = [] \/ _ |- _ => destruct H as [H|H]; rewrite H in E2; [discriminate|injection E2 as <- _; reflexivity] end.
Qed.
Lemma rule_q2 a xs : words a = map mstr xs -> Forall ok5 xs -> words (apply_rule A a (sg 21)) = map mstr xs.
Proof.
  apply step_id; [exact ok5_base|reflexivity|vm_compute; reflexivity|]. intros b x rest u z Hx Hb Hr E Hz. destruct z as [|c z]; [congruence|]. cbn [app].
  destruct (match_at A (r_ic (sg 21)) (r_pat (sg 21)) (rev u ++ b) (c :: z ++ rest)) as [st|] eqn:EM; [|reflexivity]. exfalso. apply match_at_some in EM. cbn [sg nth re_segment_off r_pat r_ic mk seqs alts] in EM.
  apply seq_inv in EM. destruct EM as (s1 & M1 & M2). apply chr_inv in M1. destruct M1 as (q & Aq & _ & _ & Hq). apply c39 in Hq. subst q. cbn [aft] in Aq. injection Aq as -> Aq. apply grp_inv in M2. destruct M2 as (s2 & M2 & _). apply space_or_end in M2. rewrite <- Aq in M2.
  destruct (quote_in x u z Hx E) as (HL & HNz & _). destruct z as [|l z]; [congruence|]. specialize (M2 l (z ++ rest) eq_refl). inversion HL; subst. rewrite letter_sp in M2 by assumption. discriminate.
Qed.
Lemma rule_q3 a xs : words a = map mstr xs -> Forall ok5 xs -> words (apply_rule A a (sg 22)) = map mstr xs.
Proof.
  apply step_id; [exact ok5_base|reflexivity|vm_compute; reflexivity|]. intros b x rest u z Hx Hb Hr E Hz. destruct z as [|c z]; [congruence|]. cbn [app].
  destruct (match_at A (r_ic (sg 22)) (r_pat (sg 22)) (rev u ++ b) (c :: z ++ rest)) as [st|] eqn:EM; [|reflexivity]. exfalso. apply match_at_some in EM. cbn [sg nth re_segment_off r_pat r_ic mk seqs alts] in EM.
  apply seq_inv in EM. destruct EM as (s0 & M0 & EM). assert (A0 : aft s0 = c :: z ++ rest) by (inversion M0; reflexivity). apply seq_inv in EM. destruct EM as (s1 & M1 & M2). apply chr_inv in M1. destruct M1 as (q & Aq & _ & _ & Hq). apply c39 in Hq. subst q. rewrite A0 in Aq. injection Aq as -> Aq.
  apply look_inv in M2. destruct M2 as (_ & _ & M2). destruct (M2 eq_refl) as (s3 & M3 & _). apply m_some in M3. destruct M3 as (s4 & M3 & _). apply seq_inv in M3. destruct M3 as (s5 & W1 & M3). apply seq_inv in M3. destruct M3 as (s6 & W2 & W3).
  apply chr_inv in W1. destruct W1 as (c1 & A1 & _ & _ & H1). apply chr_inv in W2. destruct W2 as (c2 & A2 & _ & _ & H2). apply chr_inv in W3. destruct W3 as (c3 & A3 & _ & _ & H3). rewrite A2, A3 in A1. rewrite <- Aq in A1.
  assert (WS : forall d, cset_match A true (cls [CWord]) d = true -> u_space A d = true -> False).
  { clear. intros d Hd Hs. unfold cset_match, cls in Hd. cbn [cs_neg cs_items existsb citem_match] in Hd. rewrite xorb_false_l, orb_false_r in Hd. rewrite (ok_space_word _ ascii_udb_ok d Hs) in Hd. discriminate. }
  destruct (quote_in x u z Hx E) as (HL & HNz & HLn & _). destruct z as [|l1 [|l2 [|l3 z]]]; [congruence| | |cbn in HLn; lia]; cbn [app] in A1.
  - injection A1 as _ A1. apply (WS c2 H2). exact (Hr _ _ A1).
  - injection A1 as _ _ A1. apply (WS c3 H3). exact (Hr _ _ A1).
Qed.

(** *** contracted words *)
Definition lowq (c : char) : bool := ((97 <=? c) && (c <=? 122) || (c =? 39))%N.
Lemma cc_uncap2 c d : lowq c = true -> cset_match A true (cc c) d = true <-> uncapital d = c.
Proof.
  unfold lowq. rewrite orb_true_iff, andb_true_iff, !N.leb_le, N.eqb_eq. intros [H|H]; [apply cc_uncap; exact H|]. subst c. split.
  - intros H. apply c39 in H. subst d. reflexivity.
  - intros H. assert (d = 39%N). { unfold uncapital in H. destruct (_ && _)%bool eqn:E; [|exact H]. apply andb_true_iff in E. rewrite !N.leb_le in E. lia. } subst d. reflexivity.
Qed.
Lemma word_uncap2 s x : forallb lowq s = true -> lang A true (word s) x <-> map uncapital x = s.
Proof.
  intros Hs. assert (HF : Forall (fun c => lowq c = true) s) by (apply Forall_forall; apply forallb_forall; exact Hs). clear Hs. split.
  - intros L. apply lang_word in L. revert HF. induction L as [|c d s x E L IH]; intros HF; [reflexivity|]. inversion HF; subst. cbn. f_equal; [apply cc_uncap2; assumption|apply IH; assumption].
  - revert s HF. induction x as [|d x IH]; intros s HF E; cbn [map] in E; subst s; [reflexivity|]. inversion HF; subst. assert (D : lang A true (ch (uncapital d)) [d]) by (exists d; split; [reflexivity|apply cc_uncap2; auto]).
    specialize (IH _ H2 eq_refl). destruct x as [|e x]; [exact D|]. exists [d], (e :: x). split; [reflexivity|]. split; [exact D|exact IH].
Qed.
Definition clitics : list string := ["n't"; "'re"; "'ll"; "'ve"; "'m"; "'d"; "'s"]%string.
Notation rco := (r_pat (sg 24)).
Lemma rco_eq : rco = Seq (Grp 1 (alts (map Regex.w clitics))) sp_or_end.
Proof. reflexivity. Qed.
Lemma clitic_lang x : lang A true (alts (map Regex.w clitics)) x <-> In (map uncapital x) contracted.
Proof.
  assert (LW : forall s, In s clitics -> forallb lowq (lit s) = true) by (apply forallb_forall; vm_compute; reflexivity). split.
  - intros L. apply lang_alts in L; [|discriminate]. destruct L as (r0 & Hr & L). apply in_map_iff in Hr. destruct Hr as (s & <- & Hs). unfold Regex.w in L. apply word_uncap2 in L; [|apply LW; exact Hs]. rewrite L. change contracted with (map lit clitics). apply in_map. exact Hs.
  - intros H. change contracted with (map lit clitics) in H. apply in_map_iff in H. destruct H as (s & E & Hs). apply (alts_in _ (Regex.w s)); [apply in_map; exact Hs|]. apply (proj2 (word_uncap2 (lit s) x (LW s Hs))). symmetry. exact E.
Qed.
Lemma contr_inv b a st : match_at A true rco b a = Some st -> exists x, a = x ++ aft st /\ In (map uncapital x) contracted /\ sfirst (aft st) /\ Regex.group st 1 = x /\ bef st = rev x ++ b.
Proof.
  intros M. apply match_at_some in M. rewrite rco_eq in M. apply seq_inv in M. destruct M as (s1 & G & M). apply grp_inv in G. destruct G as (s2 & W & ->). apply mrel_lang in W. destruct W as (x & A1 & B1 & L). cbn [aft bef] in *. apply clitic_lang in L.
  apply look_inv in M. cbn [aft bef] in M. destruct M as (M1 & M2 & M3). destruct (M3 eq_refl) as (s3 & M4 & MC). pose proof M4 as M5. apply m_some in M5. destruct M5 as (s4 & M5 & E5). injection E5 as <-. pose proof (space_or_end _ _ _ M5) as SE. cbn [aft] in SE.
  exists x. rewrite M2, M1. split; [exact A1|]. split; [exact L|]. split; [exact SE|]. split; [|exact B1]. unfold Regex.group. rewrite MC.
  assert (C4 : caps s4 = (1, consumed {| bef := b; aft := a; caps := [] |} s2) :: caps s2). { cbn [alts] in M5. apply alt_inv in M5. destruct M5 as [M5|M5]; [apply chr_inv in M5; destruct M5 as (? & _ & _ & M5 & _); exact M5|inversion M5; reflexivity]. }
  rewrite C4. cbn [dget Nat.eqb]. apply consumed_eq. exact B1.
Qed.
Lemma contr_found b x rest : In (map uncapital x) contracted -> sfirst rest -> match_at A true rco b (x ++ rest) <> None.
Proof.
  intros Hx Hr F. pose proof (proj2 (clitic_lang x) Hx) as L. destruct (lang_mrel A true (alts (map Regex.w clitics)) eq_refl x L b rest []) as (cp & R).
  pose proof (RGrp _ _ 1 _ _ _ R) as RG. match type of RG with mrel _ _ _ _ ?st => assert (G : exists s, m A true (alts [sp; Eol]) st (fun s => Some s) = Some s) end.
  { clear - Hr. cbn [bef aft caps]. destruct rest as [|c rest]; [eexists; reflexivity|]. specialize (Hr c rest eq_refl). apply space_in in Hr. cbn in Hr. repeat (destruct Hr as [<-|Hr]; [eexists; reflexivity|]). contradiction. }
  destruct G as (s & G). refine (match_at_none _ _ _ _ _ F _ _). rewrite rco_eq. eapply RSeq; [exact RG|]. exact (RLook _ _ _ _ _ G).
Qed.
Lemma clitic_space c : In (map uncapital c) contracted -> Forall (fun c => u_space A c = false) c.
Proof. intros H. eapply Forall_impl; [|apply clitic_wch; exact H]. intros d. apply wch_space. Qed.
Lemma clitic_has39 c : In (map uncapital c) contracted -> In 39%N c.
Proof. intros H. destruct (clitic_parts c H) as (u & v & -> & _). rewrite in_app_iff. right. left. reflexivity. Qed.
Fixpoint suffixes (s : str) : list str := match s with [] => [] | _ :: r => r :: suffixes r end.
Lemma suffix_in (z c : str) : z <> [] -> In c (suffixes (z ++ c)).
Proof. intros H. destruct z as [|d z]; [congruence|]. clear H. revert d. induction z as [|e z IH]; intros d; [left; reflexivity|]. right. apply IH. Qed.
Lemma clitic_suffix z c : z <> [] -> In (map uncapital c) contracted -> In (map uncapital (z ++ c)) contracted -> False.
Proof.
  intros Hz Hc H. assert (B : forallb (fun s => forallb (fun t => negb (memb t contracted)) (suffixes s)) contracted = true) by (vm_compute; reflexivity). rewrite forallb_forall in B. specialize (B _ H). rewrite forallb_forall in B.
  rewrite map_app in B. specialize (B (map uncapital c) (suffix_in (map uncapital z) (map uncapital c) ltac:(destruct z; [congruence|discriminate]))). apply negb_true_iff in B. rewrite (proj2 (memb_in _ _) Hc) in B. discriminate.
Qed.
Definition fcon (x : mw) : str := match x with MC (Short p c) t => p ++ [32%N] ++ c ++ [32%N] | _ => mstr x end.
Definition Fcon (x : mw) : list mw := match x with MC (Short p c) t => [MC (Plain p) TNone; MSym c] | _ => [x] end.
Lemma rule_contraction a xs : words a = map mstr xs -> Forall ok5 xs -> words (apply_rule A a (sg 24)) = map mstr (flat_map Fcon xs).
Proof.
  apply (step (sg 24) ok5 eq_refl ltac:(vm_compute; reflexivity) fcon Fcon).
  - intros b x rest Hx Hb Hr. change (r_ic (sg 24)) with true. destruct (base_word x (ok5_base x Hx)) as [_ HS].
    assert (NO : (forall u z, mstr x = u ++ 39%N :: z -> False) -> sr A true rco (r_rep (sg 24)) b (mstr x ++ rest) = mstr x ++ sr A true rco (r_rep (sg 24)) (rev (mstr x) ++ b) rest).
    { intros H39. apply sr_skips; [reflexivity|]. intros u z E Hz. destruct (match_at A true rco (rev u ++ b) (z ++ rest)) as [st|] eqn:EM; [|reflexivity]. exfalso. apply contr_inv in EM. destruct EM as (y & Ey & Hy & Sy & _).
      rewrite E in HS. apply Forall_app in HS. destruct HS as [_ HS]. apply word_prefix in Ey; [|exact HS|apply clitic_space; exact Hy|exact Hr|exact Sy]. destruct Ey as [-> _]. apply clitic_has39 in Hy. apply in_split in Hy. destruct Hy as (y1 & y2 & ->). apply (H39 (u ++ y1) y2). rewrite E, app_assoc. reflexivity. }
    destruct x as [[p|n|p c|q p|key] t|s].
    + apply NO. intros u z E. destruct (quote_in _ _ _ Hx E) as (HL & _). destruct Hx as [(Hc & _) Hm]. cbn [core_ok SEnglish.core_ok] in Hc. assert (I0 : In 39%N (mstr (MC (Plain p) t))) by (rewrite E, in_app_iff; right; left; reflexivity). cbn [mstr ctext] in I0. apply in_app_iff in I0. destruct I0 as [I0|I0]; [revert I0; apply letters_no; [apply Hc|reflexivity]|].
      destruct t as [|m0|]; [contradiction| |cbn in I0; repeat destruct I0 as [I0|I0]; try discriminate I0; contradiction]. destruct Hm as [-> _]. destruct I0 as [I0|[]]. discriminate I0.
    + apply NO. intros u z E. destruct Hx as [(Hc & _) Hm]. cbn [core_ok SEnglish.core_ok] in Hc. assert (I0 : In 39%N (mstr (MC (Num n) t))) by (rewrite E, in_app_iff; right; left; reflexivity). cbn [mstr ctext] in I0. apply in_app_iff in I0. destruct I0 as [I0|I0]; [revert I0; apply no39_num; exact Hc|].
      destruct t as [|m0|]; [contradiction| |cbn in I0; repeat destruct I0 as [I0|I0]; try discriminate I0; contradiction]. destruct Hm as [-> _]. destruct I0 as [I0|[]]. discriminate I0.
    + destruct Hx as [(Hc & Ht & Hk) Hm]. destruct t as [|m0|]; [|destruct Hm as [_ F]; discriminate F|contradiction]. cbn [mstr ctext tstr fcon core_ok SEnglish.core_ok] in *. rewrite app_nil_r in *. destruct Hc as ([Hn Hp] & _ & Hc). rewrite <- app_assoc.
      rewrite (sr_skips A true rco (r_rep (sg 24)) eq_refl p b (c ++ rest)).
      * destruct (match_at A true rco (rev p ++ b) (c ++ rest)) as [st|] eqn:EM; [|exfalso; revert EM; apply contr_found; assumption]. rewrite (sr_match A true rco (r_rep (sg 24)) eq_refl _ _ _ EM). apply contr_inv in EM. destruct EM as (y & Ey & Hy & Sy & Gy & By).
        apply word_prefix in Ey; [|apply clitic_space; exact Hc|apply clitic_space; exact Hy|exact Hr|exact Sy]. destruct Ey as [<- Ey]. rewrite <- Ey, By. unfold expand. cbn [sg nth re_segment_off r_rep mk flat_map]. unfold g, tl_. rewrite Gy, app_nil_r, rev_app_distr, <- !app_assoc. reflexivity.
      * intros u z Ep Hz. destruct (match_at A true rco (rev u ++ b) (z ++ c ++ rest)) as [st|] eqn:EM; [|reflexivity]. exfalso. apply contr_inv in EM. destruct EM as (y & Ey & Hy & Sy & _).
        rewrite app_assoc in Ey. apply word_prefix in Ey; [| |apply clitic_space; exact Hy|exact Hr|exact Sy].
        -- destruct Ey as [<- _]. exact (clitic_suffix z c Hz Hc Hy).
        -- rewrite Ep, <- app_assoc in HS. apply Forall_app in HS. apply HS.
    + apply NO. intros u z E. destruct Hx as [(Hc & _) Hm]. assert (I0 : In 39%N (mstr (MC (Hyph q p) t))) by (rewrite E, in_app_iff; right; left; reflexivity). cbn [mstr ctext] in I0. apply in_app_iff in I0. destruct I0 as [I0|I0]; [revert I0; apply hyph_no; [exact Hc|reflexivity|discriminate]|].
      destruct t as [|m0|]; [contradiction| |cbn in I0; repeat destruct I0 as [I0|I0]; try discriminate I0; contradiction]. destruct Hm as [-> _]. destruct I0 as [I0|[]]. discriminate I0.
    + apply NO. intros u z E. destruct Hx as [(Hc & _) Hm]. assert (I0 : In 39%N (mstr (MC (Web key) t))) by (rewrite E, in_app_iff; right; left; reflexivity). cbn [mstr ctext] in I0. apply in_app_iff in I0. destruct I0 as [I0|I0]; [revert I0; apply key_no; [exact Hc|reflexivity]|].
      destruct t as [|m0|]; [contradiction| |cbn in I0; repeat destruct I0 as [I0|I0]; try discriminate I0; contradiction]. destruct Hm as [-> _]. destruct I0 as [I0|[]]. discriminate I0.
    + apply NO. intros u z E. destruct (quote_in _ _ _ Hx E) as (_ & _ & _ & Hu). destruct Hx as [_ Hm]. cbn [mstr] in E. destruct Hm as [<-|[<-|[<-|[<-|[<-|[<-|[]]]]]]]; destruct u as [|? [|]]; try congruence; discriminate E.
  - intros x Hx. destruct (base_word _ (ok5_base x Hx)) as [H1 H2]. pose proof (split_ws_word (u_space A) _ H1 H2) as W. unfold fcon, Fcon. destruct x as [[p|n|p c|q p|key] t|s]; try exact W.
    destruct Hx as [(Hc & _) _]. cbn [core_ok SEnglish.core_ok] in Hc. destruct Hc as ([Hn Hp] & _ & Hc). etransitivity; [apply (words_core (Plain p) ([32%N] ++ c ++ [32%N])); [split; assumption|intros d y Ey; injection Ey as <- _; reflexivity]|]. cbn [app map]. f_equal. rewrite split_ws_cons_space by reflexivity.
    rewrite split_ws_word_space; [reflexivity| |apply clitic_space; exact Hc|reflexivity]. intros ->. destruct (clitic_has39 [] Hc).
Qed.
