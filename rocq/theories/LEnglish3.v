(** Proofs about the tokenizer on ordinary English text: the rule of the abbreviations. *)
From Coq Require Import Ascii String.
From Coq Require Import List NArith ZArith Arith Bool Lia.
From Verif Require Import PyBase Regex MTokenizer STok SEnglish LBase LText LRegex LSub LTok LTokWords LRun LEnglish LEnglish2.
Import ListNotations.
Local Open Scope nat_scope.

Lemma cc_uncap c d : (97 <= c <= 122)%N -> cset_match A true (cc c) d = true <-> uncapital d = c.
Proof.
  intros Hc. unfold cset_match, cc. cbn [cs_neg cs_items existsb citem_match u_variants ascii_udb]. rewrite xorb_false_l, orb_false_r. rewrite existsb_exists. unfold is_letter, ascii_swap, is_upper, is_lower, uncapital.
  split.
  - intros (e & He & E). apply andb_true_iff in E. rewrite !N.leb_le in E. assert (e = c) by lia. subst e. destruct ((65 <=? d) && (d <=? 90))%N eqn:E1; cbn [orb] in He.
    + apply andb_true_iff in E1. rewrite !N.leb_le in E1. destruct He as [He|[He|[]]]; lia.
    + destruct ((97 <=? d) && (d <=? 122))%N eqn:E2; [apply andb_true_iff in E2; rewrite !N.leb_le in E2; destruct He as [He|[He|[]]]; lia|]. destruct He as [He|[]]. exact He.
  - intros E. exists c. split; [|rewrite !N.leb_refl; reflexivity]. destruct ((65 <=? d) && (d <=? 90))%N eqn:E1; cbn [orb]; [right; left; exact E|]. destruct ((97 <=? d) && (d <=? 122))%N; left; exact E.
Qed.
Lemma cc_dot d : cset_match A true (cc 46) d = true -> d = 46%N.
Proof.
  unfold cset_match, cc. cbn [cs_neg cs_items existsb citem_match u_variants ascii_udb]. rewrite xorb_false_l, orb_false_r. rewrite existsb_exists. unfold is_letter, ascii_swap, is_upper, is_lower. intros (e & He & E). apply andb_true_iff in E. rewrite !N.leb_le in E. assert (e = 46%N) by lia. subst e.
  destruct ((65 <=? d) && (d <=? 90))%N eqn:E1; cbn [orb] in He.
  - apply andb_true_iff in E1. rewrite !N.leb_le in E1. destruct He as [He|[He|[]]]; lia.
  - destruct ((97 <=? d) && (d <=? 122))%N eqn:E2; [apply andb_true_iff in E2; rewrite !N.leb_le in E2; destruct He as [He|[He|[]]]; lia|]. destruct He as [He|[]]. exact He.
Qed.
Lemma az_any d : cset_match A true (cls [AZ]) d = true -> a_letter d = true.
Proof.
  unfold cset_match, cls, AZ. cbn [cs_neg cs_items existsb citem_match u_variants ascii_udb]. rewrite xorb_false_l, orb_false_r. rewrite existsb_exists. unfold is_letter, ascii_swap, is_upper, is_lower, a_letter, upper_case, lower_case. intros (e & He & E). apply andb_true_iff in E. rewrite !N.leb_le in E.
  destruct ((65 <=? d) && (d <=? 90))%N eqn:E1; [reflexivity|]. cbn [orb] in *. destruct ((97 <=? d) && (d <=? 122))%N eqn:E2; [reflexivity|]. destruct He as [He|[]]. subst e.
  apply andb_false_iff in E1. rewrite !N.leb_gt in E1. lia.
Qed.
Lemma word_uncap s x : forallb (fun c => (97 <=? c) && (c <=? 122))%N s = true -> lang A true (word s) x <-> map uncapital x = s.
Proof.
  intros Hs. apply lits in Hs. split.
  - intros L. apply lang_word in L. revert Hs. induction L as [|c d s x E L IH]; intros Hs; [reflexivity|]. inversion Hs; subst. cbn. f_equal; [apply cc_uncap; assumption|apply IH; assumption].
  - revert s Hs. induction x as [|d x IH]; intros s Hs E; cbn [map] in E; subst s; [reflexivity|]. inversion Hs; subst. assert (D : lang A true (ch (uncapital d)) [d]) by (exists d; split; [reflexivity|apply cc_uncap; auto]).
    specialize (IH _ H2 eq_refl). destruct x as [|e x]; [exact D|]. exists [d], (e :: x). split; [reflexivity|]. split; [exact D|exact IH].
Qed.
Lemma letter_word c : a_letter c = true -> u_word A c = true.
Proof. intros H. apply (class_all a_letter (u_word A)); [vm_compute; reflexivity|apply letter_lt; exact H|exact H]. Qed.
Lemma uncap_letter c : a_letter (uncapital c) = true -> a_letter c = true.
Proof. unfold uncapital. destruct (_ && _)%bool eqn:E; [|auto]. intros _. unfold a_letter, upper_case. rewrite E. reflexivity. Qed.
Lemma uncap_letters x s : map uncapital x = s -> forallb a_letter s = true -> Forall (fun c => a_letter c = true) x.
Proof. intros <-. rewrite forallb_forall. intros H. apply Forall_forall. intros c Hc. apply uncap_letter. apply H. apply in_map. exact Hc. Qed.
(** a run of letters *)
Lemma letters_until p v x y : Forall (fun c => a_letter c = true) p -> Forall (fun c => a_letter c = true) v -> p ++ x = v ++ 46%N :: y -> (forall c x', x = c :: x' -> a_letter c = false) -> v = p /\ x = 46%N :: y.
Proof.
  intros Hp. revert v. induction Hp as [|c p Hc Hp IH]; intros v Hv E Hx; destruct v as [|d v].
  - auto.
  - exfalso. cbn in E. specialize (Hx d _ E). inversion Hv; congruence.
  - exfalso. injection E as -> _. discriminate Hc.
  - injection E as -> E. inversion Hv; subst. destruct (IH v H2 E Hx) as [-> ->]. auto.
Qed.

Definition abbr_re : re := r_pat (ns 3).
Lemma alts_in l r0 x : In r0 l -> lang A true r0 x -> lang A true (alts l) x.
Proof.
  induction l as [|r l IH]; intros H L; [contradiction|]. destruct l as [|r' l]; [destruct H as [->|[]]; exact L|]. destruct H as [->|H]; [left; exact L|right; apply IH; assumption].
Qed.
Lemma abbr_lang x : lang A true (alts (map Regex.w abbr)) x <-> In (map uncapital x) abbreviations.
Proof.
  assert (LW : forall s, In s abbr -> forallb (fun c => (97 <=? c) && (c <=? 122))%N (lit s) = true) by (apply forallb_forall; vm_compute; reflexivity). split.
  - intros L. apply lang_alts in L; [|discriminate]. destruct L as (r0 & Hr & L). apply in_map_iff in Hr. destruct Hr as (s & <- & Hs). unfold Regex.w in L. apply word_uncap in L; [|apply LW; exact Hs]. rewrite L. apply in_map. exact Hs.
  - intros H. apply in_map_iff in H. destruct H as (s & E & Hs). apply (alts_in _ (Regex.w s)); [apply in_map; exact Hs|]. apply (proj2 (word_uncap (lit s) x (LW s Hs))). symmetry. exact E.
Qed.
Lemma look_inv pos r st st' : mrel A true (Look pos r) st st' -> bef st' = bef st /\ aft st' = aft st /\ (pos = true -> exists s2, m A true r st (fun s => Some s) = Some s2 /\ caps st' = caps s2).
Proof. intros H. inversion H; subst; cbn; split; auto; split; auto; [eauto|discriminate]. Qed.
Lemma word_alts_caps l st st' : mrel A true (alts (map Regex.w l)) st st' -> caps st' = caps st.
Proof.
  induction l as [|s l IH]; [intros H; inversion H; reflexivity|]. cbn [map]. destruct l as [|s' l]; [cbn [map alts]; apply word_caps|]. intros H. cbn [map alts] in H. apply alt_inv in H. destruct H as [H|H]; [revert H; apply word_caps|apply IH; exact H].
Qed.
Lemma abbr_inv b a st : match_at A true abbr_re b a = Some st ->
  at_word_boundary A b a = true /\ exists v s l y, a = v ++ 46%N :: s :: l :: y /\ In (map uncapital v) abbreviations /\ Regex.group st 1 = v /\ bef st = 46%N :: rev v ++ b /\ aft st = s :: l :: y /\ u_space A s = true /\ a_letter l = true.
Proof.
  intros M. apply match_at_some in M. unfold abbr_re in M. cbn [ns nth re_no_split r_pat mk seqs] in M.
  apply seq_inv in M. destruct M as (s1 & B1 & M). apply bound_inv in B1. destruct B1 as [-> E1]. cbn [bef aft] in E1. split; [exact E1|].
  apply seq_inv in M. destruct M as (s2 & G1 & M). apply grp_inv in G1. destruct G1 as (s3 & W1 & ->). apply seq_inv in M. destruct M as (s4 & D & M). apply chr_inv in D. destruct D as (c & A4 & B4 & C4 & Hc).
  pose proof (word_alts_caps _ _ _ W1) as K. apply mrel_lang in W1. destruct W1 as (v & A1 & B1 & L1). cbn [aft bef caps] in *. apply abbr_lang in L1.
  apply look_inv in M. destruct M as (M1 & M2 & M3). destruct (M3 eq_refl) as (s5 & ML & MC). assert (E46 : c = 46%N) by (apply cc_dot; exact Hc).
  subst c. pose proof ML as ML2. apply m_some in ML. destruct ML as (s6 & R6 & E6). injection E6 as <-. apply seq_inv in R6. destruct R6 as (s7 & R7 & R8). apply chr_inv in R7. destruct R7 as (s & A7 & _ & K7 & Hs). apply chr_inv in R8. destruct R8 as (l & A8 & _ & K8 & Hl).
  exists v, s, l, (aft s6). rewrite A1, A4, A7, A8. split; [reflexivity|]. split; [exact L1|]. split; [|split; [rewrite M1, B4, B1; reflexivity|split; [rewrite M2, A7, A8; reflexivity|split]]].
  - unfold Regex.group. rewrite MC, K8, K7, C4. cbn [caps dget Nat.eqb]. apply consumed_eq. exact B1.
  - unfold cset_match in Hs. cbn [cs_neg cls cs_items existsb citem_match] in Hs. rewrite xorb_false_l, orb_false_r in Hs. exact Hs.
  - apply az_any. exact Hl.
Qed.
Lemma abbr_found b p l y : In (map uncapital p) abbreviations -> (forall d b', b = d :: b' -> u_word A d = false) -> a_letter l = true -> match_at A true abbr_re b (p ++ 46%N :: 32%N :: l :: y) <> None.
Proof.
  intros Hp Hb Hl F. pose proof (proj2 (abbr_lang p) Hp) as L. destruct (lang_mrel A true (alts (map Regex.w abbr)) eq_refl p L b (46%N :: 32%N :: l :: y) []) as (cp & R).
  assert (NE : p <> []) by (intros ->; cbn in Hp; repeat destruct Hp as [Hp|Hp]; try discriminate Hp; exact Hp).
  assert (PL : Forall (fun c => a_letter c = true) p). { apply (uncap_letters p _ eq_refl). apply (proj1 (forallb_forall (forallb a_letter) abbreviations)); [vm_compute; reflexivity|exact Hp]. }
  refine (match_at_none _ _ _ _ _ F _ _). unfold abbr_re. cbn [ns nth re_no_split r_pat mk seqs].
  eapply RSeq; [apply RBound|eapply RSeq; [exact (RGrp _ _ 1 _ _ _ R)|eapply RSeq; [apply RChr; reflexivity|]]].
  - cbn [bef aft]. destruct p as [|c p]; [congruence|]. inversion PL; subst. unfold at_word_boundary. cbn [app]. rewrite (letter_word c) by assumption. destruct b as [|d b]; [reflexivity|]. rewrite (Hb d b eq_refl). reflexivity.
  - cbn [bef aft caps]. eapply RLook. assert (E : cset_match A true (cls [AZ]) l = true) by (apply (class_all a_letter (cset_match A true (cls [AZ]))); [vm_compute; reflexivity|apply letter_lt; exact Hl|exact Hl]).
    unfold sp, uc. cbn [m seqs aft bef caps]. change (cset_match A true (cls [CSpace]) 32%N) with true. cbn iota. rewrite E. reflexivity.
Qed.

(** *** the rule on a text *)
Definition nletter (c : char) : bool := negb (a_letter c).
Definition tabbr : template := [g 1; TLit nsd].
Notation sra := (sr A true abbr_re tabbr).
Lemma HNa : nullable abbr_re = false.
Proof. vm_compute. reflexivity. Qed.
Lemma quiet_abbr : quiet true abbr_re nletter = true.
Proof. vm_compute. reflexivity. Qed.
Lemma skip_nl c b a : (c < 128)%N -> a_letter c = false -> sra b (c :: a) = c :: sra (c :: b) a.
Proof. intros H1 H2. apply sr_skip; [exact HNa|]. apply (quiet_none _ _ nletter); [exact quiet_abbr|exact H1|]. unfold nletter. rewrite H2. reflexivity. Qed.
Lemma inside_word c1 c2 b a : u_word A c1 = true -> u_word A c2 = true -> match_at A true abbr_re (c1 :: b) (c2 :: a) = None.
Proof.
  intros H1 H2. destruct (match_at A true abbr_re (c1 :: b) (c2 :: a)) as [st|] eqn:E; [|reflexivity]. apply abbr_inv in E. destruct E as [E _]. unfold at_word_boundary in E. rewrite H1, H2 in E. discriminate E.
Qed.
Lemma run_word p : Forall (fun c => u_word A c = true) p -> forall c1 b a, u_word A c1 = true -> sra (c1 :: b) (p ++ a) = p ++ sra (rev p ++ c1 :: b) a.
Proof.
  induction 1 as [|c p Hc Hp IH]; intros c1 b a H1; [reflexivity|]. cbn [app]. rewrite sr_skip; [|exact HNa|apply inside_word; assumption]. rewrite IH by exact Hc. cbn [rev]. rewrite <- app_assoc. reflexivity.
Qed.
Lemma run_letters p b a : p <> [] -> Forall (fun c => a_letter c = true) p -> match_at A true abbr_re b (p ++ a) = None -> sra b (p ++ a) = p ++ sra (rev p ++ b) a.
Proof.
  intros Hn Hp HM. destruct p as [|c p]; [congruence|]. inversion Hp; subst. cbn [app] in *. rewrite sr_skip; [|exact HNa|exact HM]. rewrite run_word; [cbn [rev]; rewrite <- app_assoc; reflexivity| |apply letter_word; assumption].
  eapply Forall_impl; [|eassumption]. intros d. apply letter_word.
Qed.
Lemma run_nl p b a : Forall (fun c => (c < 128)%N /\ a_letter c = false) p -> sra b (p ++ a) = p ++ sra (rev p ++ b) a.
Proof.
  intros H. revert b. induction H as [|c p [H1 H2] Hp IH]; intros b; [reflexivity|]. cbn [app]. rewrite skip_nl by assumption. rewrite IH. cbn [rev]. rewrite <- app_assoc. reflexivity.
Qed.
Lemma number_nl n : number n -> Forall (fun c => (c < 128)%N /\ a_letter c = false) n.
Proof.
  assert (D : forall d, digits d -> Forall (fun c => (c < 128)%N /\ a_letter c = false) d).
  { intros d [_ H]. eapply Forall_impl; [|exact H]. intros c Hc. split; [apply digit_lt; exact Hc|]. apply digit_in in Hc. each Hc. }
  induction 1 as [d Hd|d s n Hd Hs Hn IH]; [auto|]. apply Forall_app. split; [auto|]. constructor; [|exact IH]. destruct Hs as [-> | ->]; split; reflexivity.
Qed.
Definition clitic_cut (c : str) : str * str := match c with q :: r => if (q =? 39)%N then ([], r) else ([q], List.tl r) | [] => ([], []) end.
Definition clitic_form (c : str) : bool :=
  let '(u, v) := clitic_cut c in
  (if list_eq_dec N.eq_dec c (u ++ 39%N :: v) then true else false) && forallb a_letter u && forallb a_letter v && negb (length v =? 0) &&
  implb (memb (map uncapital v) abbreviations) (memb (map uncapital c) [lit "'m"]).
Lemma clitic_parts c : In (map uncapital c) contracted -> exists u v, c = u ++ 39%N :: v /\ Forall (fun c => a_letter c = true) u /\ Forall (fun c => a_letter c = true) v /\ v <> [] /\
  (In (map uncapital v) abbreviations -> memb (map uncapital c) [lit "'m"] = true).
Proof.
  intros H. assert (E : clitic_form c = true) by (apply clitic_all; [vm_compute; reflexivity|exact H]). unfold clitic_form in E. destruct (clitic_cut c) as [u v]. exists u, v. rewrite !andb_true_iff in E. destruct E as ((((E1 & E2) & E3) & E4) & E5).
  destruct (list_eq_dec _ _ _) as [E|]; [|discriminate]. split; [exact E|]. rewrite forallb_forall in E2, E3. split; [apply Forall_forall; exact E2|]. split; [apply Forall_forall; exact E3|]. split; [intros ->; discriminate|].
  intros HI. unfold memb in E5 at 1. destruct (in_dec _ _ _); [exact E5|contradiction].
Qed.

Definition keepa (c : core) (xs : list mw) : bool := match nextc xs with Some d => a_letter d && abbreviated c | None => false end.
Definition fabbr (x : mw) (xs : list mw) : mw := match x with MC c (TMark m) => if (m =? 46)%N && keepa c xs then MC c TKept else x | _ => x end.
Definition okB (x : mw) (xs : list mw) : Prop := okA x xs /\ match x with MC (Short p c) (TMark m) => m = 46%N -> keepa (Short p c) xs = false | _ => True end.
Lemma okB_A xs : LRun.okn okB xs -> okn xs.
Proof. induction 1 as [|x xs [Hx _] _ IH]; constructor; assumption. Qed.
Lemma memb_in s l : memb s l = true <-> In s l.
Proof. unfold memb. destruct (in_dec _ _ _); split; auto; discriminate. Qed.
Lemma tail_run t b a : tl_ok t -> (forall c b', b = c :: b' -> True) -> sra b (tstr t ++ a) = tstr t ++ sra (rev (tstr t) ++ b) a.
Proof.
  intros Ht _. destruct t as [|m0|]; [reflexivity| |].
  - apply run_nl. constructor; [|constructor]. cbn in Ht. repeat destruct Ht as [<-|Ht]; try (split; reflexivity). contradiction.
  - unfold tstr, nsd. change (lit "_NSD_") with (95%N :: lit "NSD_"). cbn [app]. rewrite skip_nl by reflexivity. rewrite run_word; [cbn [rev]; rewrite <- app_assoc; reflexivity| |reflexivity]. repeat constructor.
Qed.
(** the text after a word *)
Lemma after_nl t xs c x : tl_ok t -> okn xs -> tstr t ++ tail xs = c :: x -> a_letter c = false.
Proof.
  intros Ht Ho E. destruct t as [|m0|]; cbn [tstr app] in E.
  - destruct (tail_cases xs Ho) as [[_ E2]|(d & r & E2 & _)]; rewrite E2 in E; [discriminate|]. injection E as <- _. reflexivity.
  - injection E as <- _. cbn in Ht. repeat destruct Ht as [<-|Ht]; try reflexivity. contradiction.
  - injection E as <- _. reflexivity.
Qed.
Lemma after_dot t xs y : tl_ok t -> okn xs -> tstr t ++ tail xs = 46%N :: y -> t = TMark 46%N /\ y = tail xs.
Proof.
  intros Ht Ho E. destruct t as [|m0|]; cbn [tstr app] in E.
  - destruct (tail_cases xs Ho) as [[_ E2]|(d & r & E2 & _)]; rewrite E2 in E; discriminate.
  - injection E as -> <-. auto.
  - discriminate.
Qed.
Lemma abbr_none p b t xs : p <> [] -> Forall (fun c => a_letter c = true) p -> tl_ok t -> okn xs ->
  (t = TMark 46%N -> In (map uncapital p) abbreviations -> match nextc xs with Some d => a_letter d = false | None => True end) -> match_at A true abbr_re b (p ++ tstr t ++ tail xs) = None.
Proof.
  intros Hn Hp Ht Ho HK. destruct (match_at A true abbr_re b (p ++ tstr t ++ tail xs)) as [st|] eqn:E; [|reflexivity]. exfalso. apply abbr_inv in E. destruct E as (_ & v & s & l & y & E & Hv & _ & _ & _ & _ & Hl).
  assert (VL : Forall (fun c => a_letter c = true) v). { apply (uncap_letters v _ eq_refl). apply (proj1 (forallb_forall (forallb a_letter) abbreviations)); [vm_compute; reflexivity|exact Hv]. }
  apply letters_until in E; [|exact Hp|exact VL|intros c x; apply after_nl; assumption]. destruct E as [-> E]. apply after_dot in E; [|exact Ht|exact Ho]. destruct E as [-> E]. specialize (HK eq_refl Hv).
  destruct (tail_cases xs Ho) as [[_ E2]|(d & r & E2 & Hd & En)]; rewrite E2 in E; [discriminate|]. injection E as -> -> ->. destruct En as [En|[_ ->]]; [rewrite En in HK; congruence|discriminate Hl].
Qed.
Lemma abbr_none_q p b k x : a_letter k = false -> k <> 46%N -> p <> [] -> Forall (fun c => a_letter c = true) p -> match_at A true abbr_re b (p ++ k :: x) = None.
Proof.
  intros Hk1 Hk2 Hn Hp. destruct (match_at A true abbr_re b (p ++ k :: x)) as [st|] eqn:E; [|reflexivity]. exfalso. apply abbr_inv in E. destruct E as (_ & v & s & l & y & E & Hv & _).
  assert (VL : Forall (fun c => a_letter c = true) v). { apply (uncap_letters v _ eq_refl). apply (proj1 (forallb_forall (forallb a_letter) abbreviations)); [vm_compute; reflexivity|exact Hv]. }
  apply letters_until in E; [|exact Hp|exact VL|intros c z Ez; injection Ez as <- _; exact Hk1]. destruct E as [_ E]. congruence.
Qed.
Lemma key_word k : keyp k -> exists r, k = 95%N :: r /\ Forall (fun c => u_word A c = true) r.
Proof.
  intros [n ->]. exists (lit "PROTECTED_" ++ str_of_nat n ++ [95%N]). split; [reflexivity|]. rewrite !Forall_app. split; [repeat constructor|]. split; [|repeat constructor]. eapply Forall_impl; [|apply str_of_nat_digits]. intros c Hc. cbn beta in Hc.
  assert (D : In c DG) by (apply digit_in; unfold a_digit; rewrite andb_true_iff, !N.leb_le; lia). each D.
Qed.
Lemma key_run k b a : keyp k -> sra b (k ++ a) = k ++ sra (rev k ++ b) a.
Proof. intros H. destruct (key_word k H) as (r & -> & Hr). cbn [app]. rewrite skip_nl by reflexivity. rewrite run_word; [cbn [rev]; rewrite <- app_assoc; reflexivity|exact Hr|reflexivity]. Qed.
(** the words before the last hyphen *)
Lemma hyph_run q : Forall (fun w => letters w /\ ~ is_cannot w) q -> forall b a, sra b (hyphens q ++ a) = hyphens q ++ sra (rev (hyphens q) ++ b) a.
Proof.
  induction 1 as [|w0 q [[Hn Hw] _] _ IH]; intros b a; [reflexivity|]. change (hyphens (w0 :: q)) with ((w0 ++ [45%N]) ++ hyphens q). rewrite <- !app_assoc. cbn [app].
  rewrite run_letters; [|exact Hn|exact Hw|apply abbr_none_q; [reflexivity|discriminate|exact Hn|exact Hw]]. rewrite skip_nl by reflexivity. rewrite IH. rewrite !rev_app_distr. cbn [rev app]. rewrite <- !app_assoc. reflexivity.
Qed.
Lemma hyph_rev q : q <> [] -> exists r, rev (hyphens q) = 45%N :: r.
Proof. intros H. destruct q as [|w0 q _] using rev_ind; [congruence|]. unfold hyphens. rewrite flat_map_app. cbn [flat_map]. rewrite app_nil_r, !rev_app_distr. cbn [rev app]. eauto. Qed.
(** the last word before the full stop *)
Lemma abbr_word c p b t ys : letters p -> tl_ok t -> okn ys -> (forall d b', b = d :: b' -> u_word A d = false) -> abbreviated c = memb (map uncapital p) abbreviations ->
  sra b (p ++ tstr t ++ tail ys) = (p ++ match fabbr (MC c t) ys with MC _ t' => tstr t' | _ => [] end) ++ sra (rev (tstr t) ++ rev p ++ b) (tail ys).
Proof.
  intros [Hn Hp] Ht Ho Hb HA. destruct (match t with TMark m => (m =? 46)%N && keepa c ys | _ => false end) eqn:EF.
  - destruct t as [|m0|]; try discriminate EF. unfold fabbr. rewrite EF. apply andb_true_iff in EF. destruct EF as [E1 E2]. apply N.eqb_eq in E1. subst m0. unfold keepa in E2. destruct (tail_cases ys Ho) as [[E3 _]|(d & rest & E3 & _ & [E4|[E4 _]])]; [subst ys; discriminate E2| |rewrite E4 in E2; discriminate E2].
    rewrite E4 in E2. apply andb_true_iff in E2. destruct E2 as [E2 E5]. rewrite HA in E5. apply memb_in in E5. rewrite E3. cbn [tstr app].
    destruct (match_at A true abbr_re b (p ++ 46%N :: 32%N :: d :: rest)) as [st|] eqn:EM; [|exfalso; revert EM; apply abbr_found; [exact E5|exact Hb|exact E2]].
    rewrite (sr_match _ _ _ _ HNa _ _ _ EM). apply abbr_inv in EM. destruct EM as (_ & v & s & l & y & Ev & Hv & Gv & Bv & Av & _).
    assert (VL : Forall (fun c => a_letter c = true) v). { apply (uncap_letters v _ eq_refl). apply (proj1 (forallb_forall (forallb a_letter) abbreviations)); [vm_compute; reflexivity|exact Hv]. }
    apply letters_until in Ev; [|exact Hp|exact VL|intros c0 z Ez; injection Ez as <- _; reflexivity]. destruct Ev as [-> Ev]. injection Ev as -> -> ->. rewrite Bv, Av. unfold tabbr, expand, g. cbn [flat_map]. rewrite Gv, app_nil_r. cbn [tstr rev app]. reflexivity.
  - replace (fabbr (MC c t) ys) with (MC c t) by (unfold fabbr; destruct t; [reflexivity|rewrite EF; reflexivity|reflexivity]). rewrite <- app_assoc.
    rewrite run_letters; [rewrite tail_run; [reflexivity|exact Ht|auto]|exact Hn|exact Hp|]. apply abbr_none; [exact Hn|exact Hp|exact Ht|exact Ho|]. intros -> HI. cbn [N.eqb Pos.eqb andb] in EF. unfold keepa in EF. destruct (nextc ys) as [d|]; [|exact I].
    rewrite HA, (proj2 (memb_in _ _) HI), andb_true_r in EF. exact EF.
Qed.
Lemma fabbr_core c t ys : mstr (fabbr (MC c t) ys) = ctext c ++ match fabbr (MC c t) ys with MC _ t' => tstr t' | _ => [] end.
Proof. unfold fabbr. destruct t as [|m0|]; try reflexivity. destruct (_ && _); reflexivity. Qed.
Lemma rule_abbr xs : LRun.okn okB xs -> apply_rule A (join [32%N] (map mstr xs)) (ns 3) = join [32%N] (map mstr (mapn fabbr xs)).
Proof.
  intros H. apply (sub_next A true abbr_re tabbr HNa mstr fabbr okB); [| |exact H].
  - intros b x ys _. apply (quiet_none _ _ nletter); [exact quiet_abbr|reflexivity|reflexivity].
  - intros b x ys [Hx Hx2] Ho Hb. apply okB_A in Ho. destruct x as [c t|s]; [|contradiction]. destruct Hx as (Hc & Ht & _). cbn [mstr]. rewrite <- app_assoc. rewrite rev_app_distr, <- app_assoc.
    assert (Hw : forall d b', b = d :: b' -> u_word A d = false) by (intros d b' E; rewrite (Hb d b' E); reflexivity).
    destruct c as [p|n|p c|q p|key]; cbn [core_ok SEnglish.core_ok ctext] in *.
    + rewrite (abbr_word (Plain p) p b t ys Hc Ht Ho Hw eq_refl), fabbr_core. cbn [ctext]. reflexivity.
    + replace (fabbr (MC (Num n) t) ys) with (MC (Num n) t). 2:{ unfold fabbr. destruct t as [|m0|]; try reflexivity. unfold keepa. destruct (nextc ys); cbn [abbreviated]; rewrite ?andb_false_r; reflexivity. }
      cbn [mstr ctext]. rewrite run_nl by (apply number_nl; exact Hc). rewrite tail_run by auto. rewrite <- app_assoc. reflexivity.
    + destruct Hc as ([Hn Hp] & _ & Hc). replace (fabbr (MC (Short p c) t) ys) with (MC (Short p c) t). 2:{ unfold fabbr. destruct t as [|m0|]; try reflexivity. destruct (m0 =? 46)%N eqn:Em; [|reflexivity]. rewrite Hx2 by (apply N.eqb_eq; exact Em). reflexivity. }
      destruct (clitic_parts c Hc) as (u & v & -> & Hu & Hv & Hvn & HI). cbn [mstr ctext]. rewrite <- !app_assoc. cbn [app].
      replace (p ++ u ++ 39%N :: v ++ tstr t ++ tail ys) with ((p ++ u) ++ 39%N :: v ++ tstr t ++ tail ys) by (rewrite <- app_assoc; reflexivity).
      rewrite run_letters; [|destruct p; [congruence|discriminate]|apply Forall_app; auto|apply abbr_none_q; [reflexivity|discriminate|destruct p; [congruence|discriminate]|apply Forall_app; auto]].
      rewrite skip_nl by reflexivity. rewrite run_letters; [|exact Hvn|exact Hv|].
      * rewrite tail_run by auto. rewrite !rev_app_distr. cbn [rev]. rewrite <- !app_assoc. cbn [app]. rewrite <- ?app_assoc. reflexivity.
      * apply abbr_none; [exact Hvn|exact Hv|exact Ht|exact Ho|]. intros -> HA. specialize (Hx2 eq_refl). unfold keepa in Hx2. cbn [abbreviated] in Hx2. rewrite (HI HA) in Hx2. destruct (nextc ys); [rewrite andb_true_r in Hx2; exact Hx2|exact I].
    + destruct Hc as (Hq & HQ & Hp & _). rewrite <- app_assoc. rewrite hyph_run by exact HQ. rewrite fabbr_core. cbn [ctext].
      rewrite (abbr_word (Hyph q p) p (rev (hyphens q) ++ b) t ys Hp Ht Ho); [| |reflexivity].
      * rewrite rev_app_distr, <- !app_assoc. reflexivity.
      * intros d b' E. destruct (hyph_rev q Hq) as (r & Er). rewrite Er in E. injection E as <- _. reflexivity.
    + replace (fabbr (MC (Web key) t) ys) with (MC (Web key) t). 2:{ unfold fabbr. destruct t as [|m0|]; try reflexivity. unfold keepa. destruct (nextc ys); cbn [abbreviated]; rewrite ?andb_false_r; reflexivity. }
      cbn [mstr ctext]. rewrite key_run by exact Hc. rewrite tail_run by auto. rewrite <- app_assoc. reflexivity.
Qed.
