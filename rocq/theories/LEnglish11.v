(** Proofs about the tokenizer on ordinary English text: nothing is protected, and the theorem. *)
From Coq Require Import Ascii String.
From Coq Require Import List NArith ZArith Arith Bool Lia.
From Verif Require Import PyBase Regex MTokenizer STok SEnglish LBase LText LUdb LRestore LRegex LSub LSentencizer LTok LTokWords LAscii LRun LEnglish LEnglish2 LEnglish3 LEnglish4 LEnglish5 LEnglish6 LEnglish7 LEnglish8 LEnglish9 LEnglish10 LProtect LWeb.
Import ListNotations.
Local Open Scope nat_scope.

Notation tailw := (tail_of written).
Lemma tailw_sp ws : sfirst (tailw ws).
Proof. destruct ws; cbn [tail_of]; intros c a E; [discriminate|]. injection E as <- _. reflexivity. Qed.
Lemma join_cut ws x y : join [32%N] (map written ws) = x ++ y -> y = [] \/ exists v post u z, In v ws /\ Forall (fun w => In w ws) post /\ written v = u ++ z /\ y = z ++ tailw post.
Proof.
  revert x. induction ws as [|v ws IH]; intros x E.
  - cbn in E. destruct x; [|discriminate]. cbn in E. auto.
  - rewrite (join_tail written) in E. destruct (app_eq_app _ _ _ _ E) as (l & [[E1 E2]|[E1 E2]]).
    + right. exists v, ws, x, l. split; [left; reflexivity|]. split; [apply Forall_forall; intros w0 Hw; right; exact Hw|]. split; assumption.
    + destruct ws as [|v2 ws]; [cbn [tail_of] in E2; symmetry in E2; apply app_eq_nil in E2; tauto|]. unfold tail_of in E2. destruct l as [|c l].
      * cbn [app] in E2. right. exists v, (v2 :: ws), (written v), []. split; [left; reflexivity|]. split; [apply Forall_forall; intros w0 Hw; right; exact Hw|]. split; [symmetry; apply app_nil_r|]. symmetry. exact E2.
      * cbn [app] in E2. injection E2 as <- E2. destruct (IH l E2) as [->|(v0 & post & u & z & H1 & H2 & H3 & H4)]; [auto|]. right. exists v0, post, u, z. split; [right; exact H1|]. split; [|auto]. eapply Forall_impl; [|exact H2]. intros w0 Hw. right. exact Hw.
Qed.
(** *** characters of the words *)
Definition wok (v : eword) : Prop := core_ok (e_core v) /\ match e_mark v with Some m => In m (lit ",!?;:.") | None => True end.
Lemma english_wok ws : english ws -> Forall wok ws.
Proof.
  induction 1; constructor; try assumption; (split; [assumption|]); cbn [e_mark]; auto; cbn in *; tauto.
Qed.
Lemma wok_wch v : wok v -> Forall (fun c => wch c = true) (written v).
Proof.
  intros [Hc Hm]. unfold written. apply Forall_app. split; [apply core_wch; exact Hc|]. destruct (e_mark v) as [m|]; constructor; [|constructor]. cbn in Hm. repeat destruct Hm as [<-|Hm]; try reflexivity; contradiction.
Qed.
Lemma wok_space v : wok v -> Forall (fun c => u_space A c = false) (written v).
Proof. intros H. eapply Forall_impl; [|apply wok_wch; exact H]. intros c. apply wch_space. Qed.
Lemma wok_head v : wok v -> exists d r, written v = d :: r /\ an d = true.
Proof. intros [Hc _]. destruct (core_head (e_core v) Hc) as (d & r & E & Hd). unfold written. rewrite E. cbn [app]. eauto. Qed.
Lemma core_last c : core_ok c -> exists q d, ctext c = q ++ [d] /\ an d = true.
Proof.
  intros Hc. destruct (core_last_rev c Hc) as (d & r & E & Hd). exists (rev r), d. split; [rewrite <- (rev_involutive (ctext c)), E; reflexivity|]. destruct (is_num c); [apply an_digit; exact Hd|]. unfold nondig in Hd. unfold an. apply orb_true_iff in Hd. destruct Hd as [-> | ->]; [reflexivity|apply orb_true_r].
Qed.
Lemma wok_last v u : wok v -> written v = u ++ [39%N] -> False.
Proof.
  intros [Hc Hm] E. unfold written in E. destruct (e_mark v) as [m|].
  - apply app_inj_tail in E. destruct E as [_ ->]. cbn in Hm. repeat destruct Hm as [Hm|Hm]; try discriminate Hm; contradiction.
  - rewrite app_nil_r in E. destruct (core_last _ Hc) as (q & d & E2 & Hd). rewrite E2 in E. apply app_inj_tail in E. destruct E as [_ ->]. discriminate Hd.
Qed.
Lemma num_no_letter n c : number n -> In c n -> a_letter c = false.
Proof.
  assert (D : forall d c, digits d -> In c d -> a_letter c = false). { intros d c0 [_ H] Hi. rewrite Forall_forall in H. specialize (H c0 Hi). unfold a_digit in H. unfold a_letter, upper_case, lower_case. apply andb_true_iff in H. destruct H as [H1 H2]. apply N.leb_le in H1, H2. apply orb_false_iff. split; apply andb_false_iff; left; apply N.leb_gt; lia. }
  induction 1 as [d Hd|d s n Hd Hs Hn IH]; intros Hi; [exact (D d c Hd Hi)|]. apply in_app_iff in Hi. destruct Hi as [Hi|[Hi|Hi]]; [exact (D d c Hd Hi)| |exact (IH Hi)]. subst c. destruct Hs as [-> | ->]; reflexivity.
Qed.
Lemma wok_dot v u a c z : wok v -> written v = u ++ a :: 46%N :: c :: z -> a_letter a = true -> False.
Proof.
  intros [Hc Hm] E Ha. assert (I0 : exists zz, ctext (e_core v) = u ++ a :: 46%N :: zz).
  { unfold written in E. destruct (e_mark v) as [m|]; [|rewrite app_nil_r in E; eauto]. destruct (exists_last (l := c :: z) ltac:(discriminate)) as (zz & l & El). rewrite El in E. change (u ++ a :: 46%N :: zz ++ [l]) with (u ++ (a :: 46%N :: zz) ++ [l]) in E. rewrite app_assoc in E. apply app_inj_tail in E. destruct E as [E _]. eauto. }
  destruct I0 as (zz & I0). assert (In 46%N (ctext (e_core v)) /\ In a (ctext (e_core v))) as [H1 H2] by (rewrite I0; split; apply in_or_app; right; cbn; auto).
  destruct (e_core v) as [p|n|p k|q p|key]; [| | |revert H1; apply hyph_no; [exact Hc|reflexivity|discriminate]|revert H1; apply key_no; [exact Hc|reflexivity]]; cbn [ctext core_ok SEnglish.core_ok] in *.
  - revert H1. apply letters_no; [apply Hc|reflexivity].
  - pose proof (num_no_letter n a Hc H2). congruence.
  - apply in_app_iff in H1. destruct H1 as [H1|H1]; [revert H1; apply letters_no; [apply Hc|reflexivity]|]. destruct Hc as (_ & _ & Hk).
    assert (F : forallb (fun c => negb (c =? 46)%N) k = true) by (apply (clitic_all (forallb (fun c => negb (c =? 46)%N))); [vm_compute; reflexivity|exact Hk]). rewrite forallb_forall in F. specialize (F _ H1). discriminate F.
Qed.
(** *** nothing is protected *)
Lemma set_space d : cset_match A true (cls [CSpace]) d = true -> u_space A d = true.
Proof. unfold cset_match, cls. cbn [cs_neg cs_items existsb citem_match]. rewrite xorb_false_l, orb_false_r. auto. Qed.
Lemma set_nospace d : cset_match A true (ncls [CSpace; CRange 46 46]) d = true -> u_space A d = false.
Proof. unfold cset_match, ncls. cbn [cs_neg cs_items existsb]. rewrite xorb_true_l. intros H. apply negb_true_iff, orb_false_iff in H. apply H. Qed.
Lemma set_one c d : caseless c = true -> cset_match A true (cc c) d = true -> d = c.
Proof. intros Hc H. apply (caseless_range A ascii_udb_ok true c d Hc). unfold cset_match, cc in H. cbn [cs_neg cs_items existsb] in H. rewrite xorb_false_l, orb_false_r in H. exact H. Qed.
Definition wset := map N.of_nat (List.seq 0 128).
Lemma set_w_all : forallb (fun d => implb (cset_match A true (cc 119) d) (a_letter d)) wset = true.
Proof. vm_compute. reflexivity. Qed.
Lemma set_n_all : forallb (fun d => implb (cset_match A true (cc 110) d) (a_letter d)) wset = true.
Proof. vm_compute. reflexivity. Qed.
Lemma lt_wset d : (d < 128)%N -> In d wset.
Proof. intros H. unfold wset. apply in_map_iff. exists (N.to_nat d). split; [apply N2Nat.id|]. apply in_seq. lia. Qed.
Lemma set_w d : (d < 128)%N -> cset_match A true (cc 119) d = true -> a_letter d = true.
Proof. intros Hd H. pose proof set_w_all as F. rewrite forallb_forall in F. specialize (F d (lt_wset d Hd)). cbn beta in F. rewrite H in F. exact F. Qed.
Lemma set_n d : (d < 128)%N -> cset_match A true (cc 110) d = true -> a_letter d = true.
Proof. intros Hd H. pose proof set_n_all as F. rewrite forallb_forall in F. specialize (F d (lt_wset d Hd)). cbn beta in F. rewrite H in F. exact F. Qed.

(** *** words without quotes at their ends *)
Definition gw (v : eword) : Prop := Forall (fun c => u_space A c = false /\ (c < 128)%N) (written v) /\ (exists d r, written v = d :: r /\ d <> 39%N) /\ (forall q, written v <> q ++ [39%N]).
Lemma wok_gw v : wok v -> gw v.
Proof.
  intros H. split; [|split].
  - eapply Forall_impl; [|apply wok_wch; exact H]. intros c Hc. split; [apply wch_space; exact Hc|apply wch_lt; exact Hc].
  - destruct (wok_head v H) as (d & r & E & Hd). exists d, r. split; [exact E|]. intros ->. discriminate Hd.
  - intros q E. exact (wok_last v q H E).
Qed.
Lemma gw_space v : gw v -> Forall (fun c => u_space A c = false) (written v).
Proof. intros [H _]. eapply Forall_impl; [|exact H]. intros c [Hc _]. exact Hc. Qed.
Ltac start x y E st EM := intros x y E; match goal with |- ?m = None => destruct m as [st|] eqn:EM; [|reflexivity] end; exfalso; apply match_at_some in EM; cbn [nth re_protect seqs] in EM.
Ltac chr H n d Hd := apply chr_inv in H; destruct H as (d & n & _ & _ & Hd); cbn [aft] in n.
Section Quotes.
  Context (ws : list eword) (HW : Forall gw ws).
  Let t := join [32%N] (map written ws).
  Lemma t_lt c : In c t -> (c < 128)%N.
  Proof. intros H. apply join_in in H. destruct H as [->|(v & Hv & Hc)]; [reflexivity|]. apply in_map_iff in Hv. destruct Hv as (w0 & <- & Hw). rewrite Forall_forall in HW. destruct (HW w0 Hw) as [F _]. rewrite Forall_forall in F. apply F. exact Hc. Qed.
  (** what is after a space is the head of a word *)
  Lemma after_space x c y : t = x ++ c :: y -> u_space A c = true -> exists v post, gw v /\ y = written v ++ tailw post.
  Proof.
    intros E Hs. destruct (join_cut ws x (c :: y) E) as [F|(v & post & u & z & H1 & H2 & H3 & H4)]; [discriminate F|]. rewrite Forall_forall in HW. destruct z as [|d z].
    - destruct post as [|v2 post]; [discriminate H4|]. cbn [app] in H4. unfold tail_of in H4. rewrite (join_tail written) in H4. injection H4 as _ ->. inversion H2; subst. eauto.
    - injection H4 as <- _. pose proof (gw_space v (HW v H1)) as F. rewrite H3 in F. apply Forall_app in F. destruct F as [_ F]. inversion F; congruence.
  Qed.
  Notation none k := (forall x y, t = x ++ y -> match_at A true (nth k re_protect Eps) (rev x ++ []) y = None).
  Lemma quote_after x c y : t = x ++ c :: 39%N :: y -> u_space A c = true -> False.
  Proof. intros E Hs. destruct (after_space x c _ E Hs) as (v & post & (_ & (d & r & Ev & Hd) & _) & F). rewrite Ev in F. injection F as <- _. exact (Hd eq_refl). Qed.
  Lemma protect0 : none 0.
  Proof.
    start x y E st EM. apply seq_inv in EM. destruct EM as (s1 & G & EM). apply seq_inv in EM. destruct EM as (s2 & EM & _). unfold w in EM. cbn [lit list_ascii_of_string map word] in EM. apply seq_inv in EM. destruct EM as (s3 & G2 & _). chr G A1 d1 H1. chr G2 A2 d2 H2.
    apply set_space in H1. apply set_one in H2; [|reflexivity]. subst y d2. rewrite A2 in E. exact (quote_after x d1 _ E H1).
  Qed.
  Lemma protect1 : none 1.
  Proof.
    start x y E st EM. apply seq_inv in EM. destruct EM as (s1 & G & EM). apply seq_inv in EM. destruct EM as (s2 & EM & G4). apply grp_inv in EM. destruct EM as (s3 & EM & E2). cbn [alts] in EM. chr G A1 d1 H1. apply set_space in H1. chr G4 A4 d4 H4. apply set_space in H4. apply alt_inv in EM. unfold w in EM. cbn [lit list_ascii_of_string map word] in EM. destruct EM as [EM|EM]; apply seq_inv in EM; destruct EM as (s5 & G2 & G3).
    - chr G2 A2 d2 H2. apply set_one in H2; [|reflexivity]. subst y d2. rewrite A2 in E. exact (quote_after x d1 _ E H1).
    - chr G2 A2 d2 H2. chr G3 A3 d3 H3. apply set_one in H3; [|reflexivity]. subst d3 y s2. cbn [aft] in A4. rewrite A2, A3, A4 in E. apply set_n in H2; [|apply t_lt; rewrite E; apply in_or_app; right; cbn; auto].
      destruct (after_space x d1 _ E H1) as (v & post & Hv & F). symmetry in F. apply (word_prefix (written v) [d2; 39%N] (tailw post) (d4 :: aft st)) in F; [|apply gw_space; exact Hv| |apply tailw_sp|intros c a Ec; injection Ec as <- _; exact H4].
      + destruct F as [F _]. destruct Hv as (_ & _ & Hv). exact (Hv [d2] F).
      + constructor; [apply letter_sp; exact H2|]. constructor; [reflexivity|constructor].
  Qed.
End Quotes.
(** *** web addresses *)
Notation web := (nth 2 re_protect Eps).
Lemma cc_nosp c d : In c (lit "htpsw:/.") -> cset_match A true (cc c) d = true -> u_space A d = false.
Proof.
  intros Hc H. assert (L : (97 <= c <= 122)%N -> u_space A d = false).
  { intros Hl. apply cc_uncap in H; [|exact Hl]. apply letter_sp. unfold a_letter, upper_case, lower_case. unfold uncapital, upper_case in H. destruct ((65 <=? d) && (d <=? 90))%N eqn:E; [reflexivity|]. subst d. apply orb_true_iff. right. apply andb_true_iff. rewrite !N.leb_le. lia. }
  cbn in Hc. repeat (destruct Hc as [<-|Hc]; [first [apply L; lia|apply set_one in H; [subst d; reflexivity|reflexivity]]|]). contradiction.
Qed.
Lemma word_nosp k q : (forall c, In c k -> In c (lit "htpsw:/.")) -> lang A true (word k) q -> Forall (fun c => u_space A c = false) q.
Proof. intros Hk L. apply lang_word in L. revert Hk. induction L as [|c d k q Hc L IH]; intros Hk; constructor; [apply (cc_nosp c); [apply Hk; left; reflexivity|exact Hc]|apply IH; intros c' H'; apply Hk; right; exact H']. Qed.
(** no address starts inside another word *)
Lemma web_none v u z rest b : wok v -> written v = u ++ z -> z <> [] -> sfirst rest -> match_at A true web b (z ++ rest) = None.
Proof.
  intros HW V3 Hz HR. match goal with |- ?m = None => destruct m as [st|] eqn:EM; [|reflexivity] end. exfalso. apply match_at_some in EM. cbn [nth re_protect seqs] in EM. apply seq_inv in EM. destruct EM as (s1 & EM & G). apply seq_inv in G. destruct G as (s2 & G & _). unfold plus in G. apply seq_inv in G. destruct G as (s3 & G & _). chr G A5 d5 H5. apply set_nospace in H5.
  pose proof (wok_wch v HW) as WC. rewrite V3 in WC. apply Forall_app in WC. destruct WC as [_ WC].
  apply grp_inv in EM. destruct EM as (s4 & EM & E2). cbn [alts] in EM.
  assert (PX : forall q r, Forall (fun c => u_space A c = false) q -> z ++ rest = q ++ r -> exists z', z = q ++ z').
  { intros q r Hq. clear - HR Hq. revert z. induction Hq as [|c q Hc Hq IH]; intros z E; [exists z; reflexivity|]. destruct z as [|d z]; [cbn [app] in E; apply HR in E; congruence|]. injection E as <- E. destruct (IH z E) as (z' & ->). exists z'. reflexivity. }
  apply alt_inv in EM. destruct EM as [EM|EM].
  - cbn [seqs] in EM. apply seq_inv in EM. destruct EM as (t1 & W1 & EM). apply seq_inv in EM. destruct EM as (t2 & W2 & W3). apply mrel_lang in W1, W2, W3. destruct W1 as (q1 & Q1 & _ & L1). destruct W2 as (q2 & Q2 & _ & L2). destruct W3 as (q3 & Q3 & _ & L3). cbn [aft] in Q1.
    assert (N1 : Forall (fun c => u_space A c = false) q1) by (apply (word_nosp (lit "http")); [cbn; intros c Hc; tauto|exact L1]). assert (N3 : Forall (fun c => u_space A c = false) q3) by (apply (word_nosp (lit "://")); [cbn; intros c Hc; tauto|exact L3]).
    assert (N2 : Forall (fun c => u_space A c = false) q2) by (destruct L2 as [L2|L2]; [apply (word_nosp (lit "s")); [cbn; intros c Hc; tauto|exact L2]|cbn in L2; subst q2; constructor]).
    destruct (PX (q1 ++ q2 ++ q3) (aft s4)) as (z' & ->); [rewrite !Forall_app; auto|rewrite Q1, Q2, Q3, <- !app_assoc; reflexivity|]. destruct (must_lang A ascii_udb_ok true [47%N] eq_refl (w "://") q3 eq_refl L3) as (c & Hc & [<-|[]]). rewrite Forall_forall in WC. assert (F : wch 47%N = true) by (apply WC; apply in_or_app; left; apply in_or_app; right; apply in_or_app; right; exact Hc). discriminate F.
  - unfold w in EM. cbn [lit list_ascii_of_string map word] in EM. apply seq_inv in EM. destruct EM as (s5 & G1 & EM). apply seq_inv in EM. destruct EM as (s6 & G2 & EM). apply seq_inv in EM. destruct EM as (s7 & G3 & G4). chr G1 A1 d1 H1. chr G2 A2 d2 H2. chr G3 A3 d3 H3. chr G4 A4 d4 H4. apply set_one in H4; [|reflexivity]. subst d4 s1. cbn [aft] in A5. rewrite A2, A3, A4, A5 in A1.
    destruct (PX [d1; d2; d3; 46%N; d5] (aft s3)) as (z' & Ez); [|exact A1|].
    + constructor; [apply (cc_nosp 119%N); [cbn; tauto|exact H1]|]. constructor; [apply (cc_nosp 119%N); [cbn; tauto|exact H2]|]. constructor; [apply (cc_nosp 119%N); [cbn; tauto|exact H3]|]. constructor; [reflexivity|]. constructor; [exact H5|constructor].
    + subst z. assert (W3 : a_letter d3 = true) by (apply set_w; [|exact H3]; apply wch_lt; rewrite Forall_forall in WC; apply WC; cbn; tauto).
      change (u ++ [d1; d2; d3; 46%N; d5] ++ z') with (u ++ [d1; d2] ++ d3 :: 46%N :: d5 :: z') in V3. rewrite app_assoc in V3. exact (wok_dot v _ d3 d5 z' HW V3 W3).
Qed.
Lemma space_none b y c : u_space A c = true -> match_at A true web b (c :: y) = None.
Proof.
  intros Hc. match goal with |- ?m = None => destruct m as [st|] eqn:EM; [|reflexivity] end. exfalso. apply match_at_some in EM. cbn [nth re_protect seqs] in EM. apply seq_inv in EM. destruct EM as (s1 & EM & _). apply grp_inv in EM. destruct EM as (s4 & EM & E2). cbn [alts] in EM. apply alt_inv in EM. destruct EM as [EM|EM].
  - cbn [seqs] in EM. apply seq_inv in EM. destruct EM as (t1 & W1 & EM). unfold w in W1. cbn [lit list_ascii_of_string map word] in W1. apply seq_inv in W1. destruct W1 as (s5 & G1 & _). chr G1 A1 d1 H1. injection A1 as <- _. apply cc_nosp in H1; [congruence|cbn; tauto].
  - unfold w in EM. cbn [lit list_ascii_of_string map word] in EM. apply seq_inv in EM. destruct EM as (s5 & G1 & _). chr G1 A1 d1 H1. injection A1 as <- _. apply cc_nosp in H1; [congruence|cbn; tauto].
Qed.
Lemma nil_none b : match_at A true web b [] = None.
Proof. vm_compute. reflexivity. Qed.
Definition headw (ws : list eword) : str := flat_map (fun v => written v ++ [32%N]) ws.
Lemma web_skip pre y : Forall wok pre -> forall b, search_from A true web b (headw pre ++ y) = search_from A true web (rev (headw pre) ++ b) y.
Proof.
  intros HP. induction HP as [|v pre Hv HP IH]; intros b; [reflexivity|]. cbn [headw flat_map]. fold (headw pre). rewrite <- !app_assoc. rewrite search_skip.
  - rewrite search_skip.
    + rewrite IH, !rev_app_distr, <- !app_assoc. reflexivity.
    + intros x1 x2 E Hx. destruct x1 as [|c x1]; [|injection E as _ E; destruct x1; [|discriminate E]; cbn in E; congruence]. cbn [app] in E. subst x2. apply space_none. reflexivity.
  - intros x1 x2 E Hx. apply (web_none v x1); [exact Hv|exact E|exact Hx|]. intros c a Ec. injection Ec as <- _. reflexivity.
Qed.
Definition wend (y : str) : Prop := sfirst y \/ exists s, y = 46%N :: s /\ sfirst s.
Notation nsd := (ncls [CSpace; CRange 46 46]).
Lemma set_dot : cset_match A true nsd 46%N = false.
Proof. vm_compute. reflexivity. Qed.
Lemma set_sp c : u_space A c = true -> cset_match A true nsd c = false.
Proof. intros H. unfold cset_match, ncls. cbn [cs_neg cs_items existsb citem_match]. rewrite H. reflexivity. Qed.
Lemma web_lt c : web_char c = true -> (c < 128)%N.
Proof. unfold web_char. rewrite !andb_true_iff, !N.leb_le. lia. Qed.
Lemma web_set_all : forallb (fun c => implb (web_char c) (cset_match A true nsd c && negb (u_space A c) && negb (c =? 46)%N && negb (c =? 39)%N && negb (c =? 34)%N && negb (c =? 40)%N)) wset = true.
Proof. vm_compute. reflexivity. Qed.
Lemma web_set c : web_char c = true -> cset_match A true nsd c = true /\ u_space A c = false /\ c <> 46%N /\ c <> 39%N /\ c <> 34%N /\ c <> 40%N.
Proof.
  intros H. pose proof web_set_all as F. rewrite forallb_forall in F. specialize (F c (lt_wset c (web_lt c H))). cbn beta in F. rewrite H in F. cbn [implb] in F. rewrite !andb_true_iff, !negb_true_iff, !N.eqb_neq in F. tauto.
Qed.
Lemma scheme_cases h : In (map uncapital h) (map lit ["http://"; "https://"; "www."]%string) ->
  (exists h1, map uncapital h1 = lit "http" /\ (h = h1 ++ lit "://" \/ exists s, uncapital s = 115%N /\ h = h1 ++ s :: lit "://")) \/ (exists h1, map uncapital h1 = lit "www" /\ h = h1 ++ [46%N]).
Proof.
  assert (U0 : forall c k, uncapital c = k -> In k (lit ":/.") -> c = k).
  { intros c k E Hk. unfold uncapital in E. destruct ((65 <=? c) && (c <=? 90))%N eqn:Hu; [|exact E]. rewrite andb_true_iff, !N.leb_le in Hu. cbn in Hk. repeat destruct Hk as [Hk|Hk]; lia. }
  intros H. cbn [map In] in H. destruct H as [H|[H|[H|[]]]]; symmetry in H; unfold str, char in *.
  - left. do 7 (destruct h as [|? h]; [discriminate H|]). destruct h; [|discriminate H]. cbn [map] in H. injection H as H1 H2 H3 H4 H5 H6 H7. apply U0 in H5; [|cbn; tauto]. apply U0 in H6; [|cbn; tauto]. apply U0 in H7; [|cbn; tauto]. subst. exists [n; n0; n1; n2]. split; [cbn [map]; rewrite H1, H2, H3, H4; reflexivity|]. left. reflexivity.
  - left. do 8 (destruct h as [|? h]; [discriminate H|]). destruct h; [|discriminate H]. cbn [map] in H. injection H as H1 H2 H3 H4 H5 H6 H7 H8. apply U0 in H6; [|cbn; tauto]. apply U0 in H7; [|cbn; tauto]. apply U0 in H8; [|cbn; tauto]. subst. exists [n; n0; n1; n2]. split; [cbn [map]; rewrite H1, H2, H3, H4; reflexivity|]. right. exists n3. split; [exact H5|reflexivity].
  - right. do 4 (destruct h as [|? h]; [discriminate H|]). destruct h; [|discriminate H]. cbn [map] in H. injection H as H1 H2 H3 H4. apply U0 in H4; [|cbn; tauto]. subst. exists [n; n0; n1]. split; [cbn [map]; rewrite H1, H2, H3; reflexivity|]. reflexivity.
Qed.
Lemma low_match k h : map uncapital h = k -> Forall (fun c => (97 <= c <= 122)%N) k -> Forall2 (fun c d => cset_match A true (cc c) d = true) k h.
Proof. intros <-. induction h as [|c h IH]; intros H; constructor; inversion H; subst; [apply cc_uncap; [assumption|reflexivity]|apply IH; assumption]. Qed.
Lemma http_low : Forall (fun c => (97 <= c <= 122)%N) (lit "http").
Proof. repeat constructor; discriminate. Qed.
Lemma www_low : Forall (fun c => (97 <= c <= 122)%N) (lit "www").
Proof. repeat constructor; discriminate. Qed.
Lemma css_match : Forall2 (fun c d => cset_match A true (cc c) d = true) (lit "://") (lit "://").
Proof. repeat constructor. Qed.
Lemma scheme_gm h b y : In (map uncapital h) (map lit ["http://"; "https://"; "www."]%string) -> gm A true (Grp 1 (alts [seqs [w "http"; opt (ch 115); w "://"]; w "www."])) b h y.
Proof.
  intros H. apply gm_grp. cbn [alts seqs]. destruct (scheme_cases h H) as [(h1 & E1 & [->|(s & Es & ->)])|(h1 & E1 & ->)].
  - apply gm_alt1. apply gm_seq; [apply (gm_word A true (lit "http")); apply low_match; [exact E1|apply http_low]|]. apply (gm_seq A true _ _ _ [] (lit "://")); [|apply (gm_word A true (lit "://")); exact css_match]. apply gm_alt2; [|apply gm_eps]. intros cp k. reflexivity.
  - apply gm_alt1. apply gm_seq; [apply (gm_word A true (lit "http")); apply low_match; [exact E1|apply http_low]|]. apply (gm_seq A true _ _ _ [s] (lit "://")); [|apply (gm_word A true (lit "://")); exact css_match]. apply gm_alt1. apply gm_chr. apply cc_uncap; [lia|exact Es].
  - apply gm_alt2.
    + intros cp k. destruct h1 as [|c h1]; [discriminate E1|]. injection E1 as E1 _. cbn [app]. change (w "http") with (Seq (ch 104) (word (lit "ttp"))). cbn [m ch aft]. destruct (cset_match A true (cc 104) c) eqn:F; [|reflexivity]. apply cc_uncap in F; [|lia]. rewrite E1 in F. discriminate F.
    + apply (gm_word A true (lit "www.")). change (lit "www.") with (lit "www" ++ [46%N]). apply Forall2_app; [apply low_match; [exact E1|apply www_low]|]. repeat constructor.
Qed.
Lemma part_head y0 c r : y0 = 46%N :: c \/ wend y0 -> y0 = r -> forall d r', y0 = d :: r' -> cset_match A true nsd d = false.
Proof. intros [->|[H|(s & -> & _)]] _ d r' E; [injection E as <- _; exact set_dot|apply set_sp; exact (H d r' E)|injection E as <- _; exact set_dot]. Qed.
Lemma web_gm u b y : address u -> wend y -> gm A true web b u y.
Proof.
  intros [(h & p & ps & Hh & [Pn Pp] & Nps & Hps & ->) _] Hy. cbn [nth re_protect seqs].
  assert (S : forall q, Forall (fun c => web_char c = true) q -> Forall (fun c => cset_match A true nsd c = true) q) by (intros q; apply Forall_impl; intros c Hc; apply web_set; exact Hc).
  assert (FM : flat_map (fun q => 46%N :: q) ps = concat (map (fun q => 46%N :: q) ps)) by (rewrite flat_map_concat_map; reflexivity).
  assert (PC : forall q y0 b0, web_part q -> (forall d r', y0 = d :: r' -> cset_match A true nsd d = false) -> gm A true (Grp 2 (Seq dot (plus not_sp_dot))) b0 (46%N :: q) y0).
  { intros q y0 b0 [Q1 Q2] Hq. apply gm_grp. apply (gm_seq A true _ _ _ [46%N] q); [apply gm_chr; reflexivity|]. apply gm_plus_chr; [exact Q1|apply S; exact Q2|exact Hq]. }
  assert (HD : forall d r', y = d :: r' -> cset_match A true nsd d = false) by (intros d r' E; exact (part_head y [] y (or_intror Hy) eq_refl d r' E)).
  assert (HC : forall qs d r', concat (map (fun q => 46%N :: q) qs) ++ y = d :: r' -> cset_match A true nsd d = false).
  { intros [|q qs] d r' E; [exact (HD d r' E)|]. cbn [map concat app] in E. injection E as <- _. exact set_dot. }
  apply gm_seq; [apply scheme_gm; exact Hh|]. apply gm_seq; [apply gm_plus_chr; [exact Pn|apply S; exact Pp|rewrite FM; apply HC]|]. rewrite FM. rewrite <- (app_nil_r (concat _)). apply gm_seq.
  - cbn [app]. destruct ps as [|q ps]; [congruence|]. inversion Hps as [|? ? Hq Hps']; subst. cbn [map concat]. unfold plus at 1. apply gm_seq; [apply PC; [exact Hq|apply HC]|]. apply gm_star.
    + intros b0 cp k. cbn [m aft dot ch]. destruct Hy as [Hy|(s & -> & Hs)].
      * destruct y as [|d y]; [reflexivity|]. destruct (cset_match A true (cc 46) d) eqn:F; [|reflexivity]. apply cc_nosp in F; [|cbn; tauto]. rewrite (Hy d y eq_refl) in F. discriminate F.
      * change (cset_match A true (cc 46) 46%N) with true. cbn [m plus not_sp_dot aft]. destruct s as [|d s]; [reflexivity|]. rewrite (set_sp d (Hs d s eq_refl)). reflexivity.
    + intros x1 x x2 E. apply map_eq_app in E. destruct E as (l1 & l2 & -> & <- & E). apply map_eq_cons in E. destruct E as (q2 & l3 & -> & <- & <-). split; [discriminate|]. intros b0. apply PC; [|apply HC]. rewrite Forall_forall in Hps'. apply Hps'. apply in_or_app. right. left. reflexivity.
  - apply (gm_star A true _ y) with (xs := []); [|intros x1 x x2 E; destruct x1; discriminate E]. intros b0 cp k. cbn [m aft ch]. destruct y as [|d y]; [reflexivity|]. destruct (cset_match A true (cc 47) d) eqn:F; [|reflexivity]. exfalso. pose proof (set_one 47%N d eq_refl F) as ->. specialize (HD 47%N y eq_refl). discriminate HD.
Qed.
(** *** the words while the addresses are protected *)
Lemma scheme_chars h : In (map uncapital h) (map lit ["http://"; "https://"; "www."]%string) -> Forall (fun c => In (uncapital c) (lit "htpsw:/.")) h.
Proof.
  intros H. apply Forall_forall. intros c Hc. assert (Hi : In (uncapital c) (map uncapital h)) by (apply in_map; exact Hc). cbn [map In] in H. destruct H as [H|[H|[H|[]]]]; rewrite <- H in Hi; cbn in Hi |- *; tauto.
Qed.
Lemma uncap_sym c : In (uncapital c) (lit "htpsw:/.") -> u_space A c = false /\ (c < 128)%N /\ c <> 39%N /\ c <> 34%N /\ c <> 40%N.
Proof.
  unfold uncapital. intros H. destruct ((65 <=? c) && (c <=? 90))%N eqn:E.
  - rewrite andb_true_iff, !N.leb_le in E. split; [apply letter_sp; unfold a_letter, upper_case; rewrite orb_true_iff, andb_true_iff, !N.leb_le; lia|lia].
  - cbn in H. repeat (destruct H as [<-|H]; [split; [reflexivity|split; [reflexivity|split; [|split]; discriminate]]|]). contradiction.
Qed.
Lemma addr_chars u : address u -> Forall (fun c => u_space A c = false /\ (c < 128)%N /\ c <> 39%N /\ c <> 34%N /\ c <> 40%N) u.
Proof.
  assert (P : forall p, web_part p -> Forall (fun c => u_space A c = false /\ (c < 128)%N /\ c <> 39%N /\ c <> 34%N /\ c <> 40%N) p).
  { intros p [_ H]. eapply Forall_impl; [|exact H]. intros c Hc. pose proof (web_set c Hc). pose proof (web_lt c Hc). tauto. }
  intros [(h & p & ps & Hh & Hp & _ & Hps & ->) _]. rewrite !Forall_app. split; [eapply Forall_impl; [|apply scheme_chars; exact Hh]; intros c; apply uncap_sym|]. split; [apply P; exact Hp|].
  clear - Hps P. induction Hps as [|q ps Hq Hps IH]; [constructor|]. cbn [flat_map]. apply Forall_app. split; [|exact IH]. constructor; [|apply P; exact Hq]. split; [reflexivity|]. split; [reflexivity|]. split; [|split]; discriminate.
Qed.
Lemma addr_last u : address u -> exists q d, u = q ++ [d] /\ web_char d = true.
Proof.
  intros [(h & p & ps & _ & _ & Nps & Hps & ->) _]. destruct (exists_last Nps) as (ps' & q & ->). apply Forall_app in Hps. destruct Hps as [_ Hq]. inversion Hq as [|? ? [Q1 Q2] _]; subst. destruct (exists_last Q1) as (q' & d & ->). apply Forall_app in Q2. destruct Q2 as [_ Q2]. inversion Q2; subst.
  exists (h ++ p ++ flat_map (fun q => 46%N :: q) ps' ++ 46%N :: q'), d. split; [|assumption]. rewrite flat_map_app. cbn [flat_map]. rewrite app_nil_r, <- !app_assoc. cbn [app]. rewrite <- ?app_assoc. reflexivity.
Qed.
Lemma addr_nonempty u : address u -> u <> [].
Proof. intros H ->. destruct (addr_last [] H) as (q & d & E & _). destruct q; discriminate E. Qed.
Lemma addr_space u : address u -> Forall (fun c => u_space A c = false) u.
Proof. intros H. eapply Forall_impl; [|apply addr_chars; exact H]. intros c Hc. apply Hc. Qed.
Definition stopped (m : option char) : Prop := m = None \/ m = Some 46%N.
Definition aok (v : eword) : Prop := wok v \/ exists u m, v = EWord (Web u) m /\ address u /\ stopped m.
Lemma aok_gw v : aok v -> gw v.
Proof.
  intros [H|(u & m & -> & Hu & Hm)]; [apply wok_gw; exact H|]. unfold gw, written. cbn [e_core e_mark ctext]. pose proof (addr_chars u Hu) as HC. split; [|split].
  - apply Forall_app. split; [eapply Forall_impl; [|exact HC]; intros c Hc; split; apply Hc|]. destruct Hm as [-> | ->]; repeat constructor.
  - destruct u as [|c u]; [destruct (addr_nonempty [] Hu eq_refl)|]. exists c. eexists. split; [reflexivity|]. inversion HC as [|? ? F0 _]; subst. apply F0.
  - intros q E. destruct Hm as [-> | ->].
    + rewrite app_nil_r in E. rewrite E in HC. apply Forall_app in HC. destruct HC as [_ HC]. inversion HC as [|? ? F _]; subst. destruct F as (_ & _ & F & _). exact (F eq_refl).
    + apply app_inj_tail in E. destruct E as [_ E]. discriminate E.
Qed.
Lemma wok_outside v u : wok v -> address u -> ~ inside u (written v).
Proof.
  intros Hv [(h & p & ps & Hh & [Pn Pp] & _ & _ & ->) _] (a & b & E). destruct (scheme_cases h Hh) as [(h1 & E1 & Hs)|(h1 & E1 & ->)].
  - pose proof (wok_wch v Hv) as F. rewrite Forall_forall in F. assert (X : wch 47%N = true); [|discriminate X]. apply F. rewrite E. apply in_or_app. right. apply in_or_app. left. apply in_or_app. left. destruct Hs as [->|(s & _ & ->)]; apply in_or_app; right; cbn; tauto.
  - destruct p as [|c p]; [congruence|]. unfold str, char in *. do 3 (destruct h1 as [|? h1]; [discriminate E1|]). destruct h1; [|discriminate E1]. injection E1 as X1 X2 X3.
    assert (L : a_letter n1 = true). { unfold uncapital in X3. unfold a_letter, upper_case, lower_case. destruct ((65 <=? n1) && (n1 <=? 90))%N; [reflexivity|]. subst n1. reflexivity. }
    apply (wok_dot v (a ++ [n; n0]) n1 c (p ++ flat_map (fun q => 46%N :: q) ps ++ b) Hv); [|exact L]. rewrite E. cbn [app]. rewrite <- !app_assoc. cbn [app]. rewrite <- ?app_assoc. reflexivity.
Qed.
Lemma key_outside n u : address u -> u <> protect_key n.
Proof. intros [_ H] ->. apply H. exists [], (str_of_nat n ++ [95%N]). reflexivity. Qed.
Lemma join_split pre v post : join [32%N] (map written (pre ++ v :: post)) = headw pre ++ written v ++ tailw post.
Proof.
  induction pre as [|v0 pre IH]; [apply (join_tail written)|]. cbn [app]. rewrite (join_tail written). cbn [headw flat_map]. fold (headw pre). destruct (pre ++ v :: post) as [|v1 l] eqn:E; [destruct pre; discriminate E|]. unfold tail_of. rewrite IH, <- !app_assoc. reflexivity.
Qed.
Lemma web_found pre u m post : Forall wok pre -> address u -> stopped m -> exists st, search A true web (join [32%N] (map written (pre ++ EWord (Web u) m :: post))) = Some (rev (headw pre) ++ [], st) /\ matched (rev (headw pre) ++ []) st = u.
Proof.
  intros HP Hu Hm. rewrite join_split. unfold search. rewrite web_skip by exact HP. unfold written. cbn [e_core e_mark ctext]. rewrite <- app_assoc.
  destruct (gm_match A true web (rev (headw pre) ++ []) u (match m with Some m => [m] | None => [] end ++ tailw post)) as (cp & E).
  - apply web_gm; [exact Hu|]. destruct Hm as [-> | ->]; [left; apply tailw_sp|]. right. exists (tailw post). split; [reflexivity|apply tailw_sp].
  - eexists. split; [apply search_here; exact E|]. apply (matched_eq (rev (headw pre) ++ [])). reflexivity.
Qed.
Lemma web_absent vs : Forall wok vs -> search A true web (join [32%N] (map written vs)) = None.
Proof.
  intros H. destruct vs as [|v0 vs0]; [vm_compute; reflexivity|]. destruct (exists_last (l := v0 :: vs0) ltac:(discriminate)) as (pre & v & E). rewrite E in *. clear E. apply Forall_app in H. destruct H as [HP Hv]. inversion Hv as [|? ? Hv' _]; subst. rewrite join_split. cbn [tail_of]. unfold search. rewrite web_skip by exact HP. apply search_none. intros x y Ey. rewrite app_nil_r in Ey. destruct y as [|c y]; [apply nil_none|]. rewrite <- (app_nil_r (c :: y)). apply (web_none v x); [exact Hv'|exact Ey|discriminate|]. intros d a Ed. discriminate Ed.
Qed.
Lemma first_address vs : Forall aok vs -> Forall wok vs \/ exists pre u m post, vs = pre ++ EWord (Web u) m :: post /\ Forall wok pre /\ address u /\ stopped m.
Proof.
  induction 1 as [|v vs [Hv|(u & m & -> & Hu & Hm)] HV IH]; [left; constructor| |right; exists [], u, m, vs; auto].
  destruct IH as [IH|(pre & u & m & post & -> & HP & Hu & Hm)]; [left; constructor; assumption|]. right. exists (v :: pre), u, m, post. auto.
Qed.
(** *** the loop that protects the addresses *)
Definition linked (prot : dict str str) (w0 v : eword) : Prop :=
  v = w0 \/ exists u n, e_core w0 = Web u /\ v = EWord (Web (protect_key n)) (e_mark w0) /\ In (protect_key n, u) prot.
Record track (ws : list eword) (prot : dict str str) (k : nat) (vs : list eword) : Prop := {
  tr_linked : Forall2 (linked prot) ws vs;
  tr_ok : Forall aok vs;
  tr_keys : map fst prot = map protect_key (seq 1 k);
  tr_addr : Forall (fun kv => address (snd kv)) prot;
  tr_apart : forall u m u2 m2, In (EWord (Web u) m) vs -> In (EWord (Web u2) m2) vs -> address u -> address u2 -> inside u u2 -> u = u2 }.
Definition swap (u key : str) (v : eword) : eword :=
  match e_core v with Web u2 => if list_eq_dec N.eq_dec u u2 then EWord (Web key) (e_mark v) else v | _ => v end.
Lemma swap_written vs u n : Forall aok vs -> address u -> (exists m, In (EWord (Web u) m) vs) -> (forall u2 m m2, In (EWord (Web u) m) vs -> In (EWord (Web u2) m2) vs -> address u2 -> inside u u2 -> u = u2) ->
  forall v, In v vs -> replace (written v) u (protect_key n) = written (swap u (protect_key n) v).
Proof.
  intros HV Hu (m0 & H0) HA v Hv. pose proof (addr_nonempty u Hu) as Nu. rewrite Forall_forall in HV. destruct (HV v Hv) as [Hw|(u2 & m & -> & Hu2 & Hm)].
  - assert (E : swap u (protect_key n) v = v).
    { unfold swap. destruct (e_core v) as [p|p|p c|q p|u2] eqn:Ec; try reflexivity. destruct (list_eq_dec N.eq_dec u u2) as [->|_]; [|reflexivity]. exfalso. destruct Hw as [Hw _]. rewrite Ec in Hw. cbn [core_ok] in Hw. destruct Hw as (i & ->). exact (key_outside i _ Hu eq_refl). }
    rewrite E. apply replace_id. intros x y F. apply (wok_outside v u Hw Hu). exists x, y. exact F.
  - unfold swap. cbn [e_core e_mark]. destruct (list_eq_dec N.eq_dec u u2) as [<-|Ne].
    + unfold written. cbn [e_core e_mark ctext]. rewrite replace_hit by exact Nu. f_equal. apply replace_id. intros x y F. destruct Hm as [-> | ->].
      * symmetry in F. apply app_eq_nil in F. destruct F as [_ F]. apply app_eq_nil in F. tauto.
      * destruct (addr_last u Hu) as (q & d & -> & Hd). assert (Hi : In d (x ++ (q ++ [d]) ++ y)) by (rewrite !in_app_iff; right; left; right; left; reflexivity). unfold str, char in *. rewrite <- F in Hi. destruct Hi as [<-|[]]. discriminate Hd.
    + apply replace_id. intros x y F. unfold written in F. cbn [e_core e_mark ctext] in F. apply Ne. apply (HA u2 m0 m H0 Hv Hu2). destruct Hm as [-> | ->]; [rewrite app_nil_r in F; exists x, y; exact F|].
      destruct y as [|c y _] using rev_ind.
      * exfalso. rewrite app_nil_r in F. destruct (addr_last u Hu) as (q & d & -> & Hd). rewrite app_assoc in F. apply app_inj_tail in F. destruct F as [_ <-]. discriminate Hd.
      * rewrite !app_assoc in F. apply app_inj_tail in F. destruct F as [F _]. exists x, y. rewrite <- app_assoc in F. exact F.
Qed.
Lemma key_wok n m : match m with Some m => In m (lit ",!?;:.") | None => True end -> wok (EWord (Web (protect_key n)) m).
Proof. intros H. split; [exists n; reflexivity|exact H]. Qed.
Lemma linked_mono prot x w0 v : linked prot w0 v -> linked (prot ++ [x]) w0 v.
Proof. intros [H|(u & n & H1 & H2 & H3)]; [left; exact H|]. right. exists u, n. split; [exact H1|]. split; [exact H2|]. apply in_or_app. left. exact H3. Qed.
Lemma track_step ws prot k vs pre u m post : track ws prot k vs -> vs = pre ++ EWord (Web u) m :: post -> address u ->
  track ws (prot ++ [(protect_key (S k), u)]) (S k) (map (swap u (protect_key (S k))) vs).
Proof.
  intros [T1 T2 T3 T4 T5] Ev Hu. constructor.
  - clear - T1 T2 Hu. revert T2. induction T1 as [|w0 v ws vs L T1 IH]; intros T2; [constructor|]. inversion T2 as [|? ? V1 V2]; subst. cbn [map]. constructor; [|apply IH; exact V2].
    unfold swap. destruct (e_core v) as [p|p|p c|q p|u2] eqn:Ec; try (apply linked_mono; exact L). destruct (list_eq_dec N.eq_dec u u2) as [<-|_]; [|apply linked_mono; exact L].
    destruct L as [->|(u3 & i & H1 & -> & H3)].
    + right. exists u, (S k). split; [exact Ec|]. split; [reflexivity|]. apply in_or_app. right. left. reflexivity.
    + exfalso. cbn [e_core] in Ec. injection Ec as Ec. exact (key_outside i u Hu (eq_sym Ec)).
  - apply Forall_forall. intros v' Hv'. apply in_map_iff in Hv'. destruct Hv' as (v & <- & Hv). rewrite Forall_forall in T2. specialize (T2 v Hv). unfold swap. destruct (e_core v) as [p|p|p c|q p|u2] eqn:Ec; try exact T2. destruct (list_eq_dec N.eq_dec u u2) as [<-|_]; [|exact T2]. left. apply key_wok. destruct T2 as [[_ T2]|(u3 & m3 & -> & _ & [-> | ->])]; [exact T2|exact I|cbn; tauto].
  - rewrite map_app, T3, seq_S, map_app. reflexivity.
  - apply Forall_app. split; [exact T4|]. constructor; [exact Hu|constructor].
  - assert (P : forall x mx, In (EWord (Web x) mx) (map (swap u (protect_key (S k))) vs) -> address x -> In (EWord (Web x) mx) vs).
    { intros x mx Hx Ax. apply in_map_iff in Hx. destruct Hx as (v & E & Hv). unfold swap in E. destruct (e_core v) as [p|p|p c|q p|u2] eqn:Ec; try (rewrite E in Hv; exact Hv). destruct (list_eq_dec N.eq_dec u u2) as [_|_]; [|rewrite E in Hv; exact Hv]. exfalso. injection E as E _. exact (key_outside _ x Ax (eq_sym E)). }
    intros x mx x2 mx2 H1 H2 A1 A2. apply (T5 x mx x2 mx2); auto.
Qed.
Lemma key_new k (prot : dict str str) (token : str) : map fst prot = map protect_key (seq 1 k) -> dset str_eqb (protect_key (S k)) token prot = prot ++ [(protect_key (S k), token)].
Proof.
  intros H1. apply (dset_new str_eqb). destruct (dget str_eqb (protect_key (S k)) prot) as [v|] eqn:E; [|reflexivity]. exfalso. assert (Hi : In (protect_key (S k)) (map fst prot)). { revert E. clear. generalize (protect_key (S k)). intros key E. induction prot as [|[a b] prot IH]; cbn [dget] in E; [discriminate|]. cbn [map In fst]. destruct (str_eqb key a) eqn:E2; [left; apply str_eqb_eq in E2; symmetry; exact E2|right; apply IH; exact E]. }
  rewrite H1 in Hi. apply in_map_iff in Hi. destruct Hi as (n & E2 & Hi). apply in_seq in Hi. assert (n = S k); [|lia]. apply (key_prefix n (S k) [] []). rewrite E2. reflexivity.
Qed.
Lemma web_loop ws : forall f vs prot k prot' i' t', track ws prot k vs -> protect_loop A f web prot (S k) (join [32%N] (map written vs)) = Ok (prot', i', t') ->
  exists vs' k', i' = S k' /\ t' = join [32%N] (map written vs') /\ track ws prot' k' vs' /\ Forall wok vs'.
Proof.
  induction f as [|f IH]; intros vs prot k prot' i' t' HT H; destruct (first_address vs (tr_ok _ _ _ _ HT)) as [HW|(pre & u & m & post & Ev & HP & Hu & Hm)].
  - cbn [protect_loop] in H. rewrite (web_absent vs HW) in H. apply ok_inj in H. injection H as <- <- <-. exists vs, k. auto.
  - destruct (web_found pre u m post HP Hu Hm) as (st & E & _). rewrite <- Ev in E. cbn [protect_loop] in H. rewrite E in H. discriminate H.
  - cbn [protect_loop] in H. rewrite (web_absent vs HW) in H. apply ok_inj in H. injection H as <- <- <-. exists vs, k. auto.
  - destruct (web_found pre u m post HP Hu Hm) as (st & E & Em). rewrite <- Ev in E. cbn [protect_loop] in H. rewrite E in H. cbv zeta in H. rewrite Em, (key_new k prot u (tr_keys _ _ _ _ HT)) in H.
    rewrite replace_join in H; [|apply addr_nonempty; exact Hu|intros F; pose proof (addr_space u Hu) as S; rewrite Forall_forall in S; specialize (S _ F); discriminate S].
    rewrite map_map in H. rewrite (map_ext_in _ (fun v => written (swap u (protect_key (S k)) v)) vs) in H.
    + rewrite <- map_map in H. apply (IH _ _ _ _ _ _ (track_step ws prot k vs pre u m post HT Ev Hu) H).
    + apply swap_written; [apply (tr_ok _ _ _ _ HT)|exact Hu|exists m; rewrite Ev; apply in_or_app; right; left; reflexivity|]. intros u2 m1 m2 H1 H2 H3. apply (tr_apart _ _ _ _ HT u m1 u2 m2); assumption.
Qed.
(** *** the keys are restored *)
Inductive same (prot : dict str str) : eword -> eword -> Prop :=
| same_word v : (forall u, e_core v <> Web u) -> same prot v v
| same_web u n m : address u -> In (protect_key n, u) prot -> same prot (EWord (Web u) m) (EWord (Web (protect_key n)) m).
Lemma english_aok ws : SEnglish.english ws -> Forall aok ws.
Proof.
  assert (P : forall c m, SEnglish.core_ok c -> match m with Some m => In m (lit ",!?;:.") | None => True end -> ((exists u, c = Web u) -> stopped m) -> aok (EWord c m)).
  { intros c m Hc Hm Hs. destruct c as [p|n|p c|q p|u]; try (left; split; [exact Hc|exact Hm]). right. exists u, m. split; [reflexivity|]. split; [exact Hc|]. apply Hs. eauto. }
  induction 1; constructor; try assumption; apply P; try assumption; cbn in *; try tauto.
  - intros _. left. reflexivity.
  - intros (u & E). destruct (H0 u E).
  - intros _. right. reflexivity.
Qed.
Lemma english_cores ws : SEnglish.english ws -> Forall (fun w0 => SEnglish.core_ok (e_core w0)) ws.
Proof. induction 1; constructor; assumption. Qed.
Lemma linked_same prot ws vs : Forall (fun w0 => SEnglish.core_ok (e_core w0)) ws -> Forall2 (linked prot) ws vs -> Forall wok vs -> Forall2 (same prot) ws vs.
Proof.
  intros HC HL. induction HL as [|w0 v ws vs L HL IH]; intros HV; [constructor|]. inversion HC as [|? ? C1 C2]; subst. inversion HV as [|? ? V1 V2]; subst. constructor; [|apply IH; assumption]. destruct L as [->|(u & n & E & -> & Hi)].
  - constructor. intros u E. destruct V1 as [V1 _]. rewrite E in C1, V1. cbn in C1, V1. destruct V1 as (n & ->). exact (key_outside n _ C1 eq_refl).
  - destruct w0 as [c m]. cbn [e_core e_mark] in *. subst c. constructor; assumption.
Qed.
Lemma next_same prot ws vs : Forall2 (same prot) ws vs -> next_char vs = next_char ws.
Proof. intros H. destruct H as [|w0 v ws vs L H]; [reflexivity|]. destruct L; reflexivity. Qed.
Lemma stop_same prot ws vs c : Forall2 (same prot) ws vs -> stop_ok c ws -> stop_ok c vs.
Proof.
  intros H [H1 H2]. split.
  - destruct c; try exact H1. rewrite (next_same prot ws vs H). exact H1.
  - destruct H as [|w0 v ws vs L H]; [exact I|]. destruct L; [exact H2|exact I].
Qed.
Lemma english_same prot ws vs : Forall2 (same prot) ws vs -> SEnglish.english ws -> english vs.
Proof.
  intros HS HE. revert vs HS. induction HE as [|c ws Hc HE IH|c m ws Hc Hw Hm HE IH|c ws Hc Hst HE IH]; intros vs HS; inversion HS as [|? v ? vs' L HS']; subst; [constructor| | |].
  - inversion L as [? HW|? n ? Hu Hi]; subst; constructor; try (apply IH; exact HS').
    + cbn [e_core] in HW. destruct c as [p|n|p c|q p|u]; [exact Hc|exact Hc|exact Hc|exact Hc|destruct (HW u eq_refl)].
    + exists n. reflexivity.
  - inversion L as [? HW|? n ? Hu Hi]; subst; [|destruct (Hw u eq_refl)]. apply english_mark; [|exact Hm|apply IH; exact HS']. destruct c as [p|n|p c|q p|u]; [exact Hc|exact Hc|exact Hc|exact Hc|destruct (Hw u eq_refl)].
  - inversion L as [? HW|? n ? Hu Hi]; subst; apply english_stop; try (apply IH; exact HS').
    + cbn [e_core] in HW. destruct c as [p|n|p c|q p|u]; [exact Hc|exact Hc|exact Hc|exact Hc|destruct (HW u eq_refl)].
    + apply (stop_same prot ws); assumption.
    + exists n. reflexivity.
    + pose proof (stop_same prot ws _ _ HS' Hst) as X. exact X.
Qed.
Lemma word_tokens_in v nx t0 c : In t0 (word_tokens v nx) -> In c t0 -> In c (written v).
Proof.
  assert (C : forall k, In t0 (core_tokens k) -> In c t0 -> In c (ctext k)).
  { intros k. destruct k as [p|n|p k|q p|u]; cbn [core_tokens ctext].
    - destruct (list_eq_dec _ _ _) as [_|_]; intros H Hc; [|destruct H as [<-|[]]; exact Hc]. rewrite <- (firstn_skipn 3 p). apply in_app_iff. destruct H as [<-|[<-|[]]]; auto.
    - intros [<-|[]] Hc. exact Hc.
    - intros [<-|[<-|[]]] Hc; apply in_or_app; auto.
    - intros [<-|[]] Hc. exact Hc.
    - intros [<-|[]] Hc. exact Hc. }
  unfold word_tokens, written. destruct (e_mark v) as [m|] eqn:Em.
  - destruct (_ && _); intros H Hc.
    + destruct H as [<-|[]]. exact Hc.
    + apply in_app_iff in H. apply in_or_app. destruct H as [H|[<-|[]]]; [left; exact (C _ H Hc)|right; exact Hc].
  - intros H Hc. apply in_or_app. left. exact (C _ H Hc).
Qed.
Section Keys.
  Context (prot : dict str str) (k : nat) (HK : map fst prot = map protect_key (seq 1 k)) (HA : Forall (fun kv => address (snd kv)) prot).
  Lemma prot_key kv : In kv prot -> exists n, fst kv = protect_key n.
  Proof. intros H. assert (Hi : In (fst kv) (map fst prot)) by (apply in_map; exact H). rewrite HK in Hi. apply in_map_iff in Hi. destruct Hi as (n & E & _). exists n. symmetry. exact E. Qed.
  Lemma restores_id l t0 : (forall kv, In kv l -> forall x y, t0 <> x ++ fst kv ++ y) -> restores l t0 = t0.
  Proof. induction l as [|kv l IH]; intros H; [reflexivity|]. unfold restores in *. cbn [fold_left]. rewrite replace_id; [apply IH; intros kv' Hi; apply H; right; exact Hi|]. apply H. left. reflexivity. Qed.
  Lemma restore_plain t0 : ~ In 95%N t0 -> restores prot t0 = t0.
  Proof. intros H. apply restores_id. intros kv Hi x y E. destruct (prot_key kv Hi) as (n & En). destruct kv as [a b]. cbn [fst] in *. subst a. apply H. rewrite E. apply in_or_app. right. left. reflexivity. Qed.
  Lemma key_other n j s x y : (s = [] \/ s = [46%N]) -> protect_key n ++ s = x ++ protect_key j ++ y -> n = j.
  Proof.
    intros Hs E. destruct x as [|c x]; [apply (key_prefix n j s y E)|]. exfalso. change (protect_key j ++ y) with (95%N :: lit "PROTECTED_" ++ (str_of_nat j ++ lit "_") ++ y) in E. destruct (app_eq_app _ _ _ _ E) as (l & [[E1 E2]|[E1 E2]]).
    - destruct l as [|d l].
      + cbn [app] in E2. destruct Hs as [-> | ->]; discriminate E2.
      + injection E2 as <- E2. apply key_inner in E1; [|discriminate]. destruct E1 as [->|(d & r & -> & Hd)].
        * cbn [app] in E2. destruct Hs as [-> | ->]; discriminate E2.
        * injection E2 as <- _. lia.
    - assert (F : In 95%N s) by (rewrite E2; apply in_or_app; right; left; reflexivity). destruct Hs as [-> | ->]; [destruct F|destruct F as [F|[]]; discriminate F].
  Qed.
  Lemma addr_other u j s x y : address u -> (s = [] \/ s = [46%N]) -> u ++ s = x ++ protect_key j ++ y -> False.
  Proof.
    intros [_ Hu] Hs E. change (protect_key j) with (lit "_PROTECTED_" ++ str_of_nat j ++ lit "_") in E. rewrite <- !app_assoc in E. apply Hu. destruct Hs as [-> | ->]; [rewrite app_nil_r in E; exists x, (str_of_nat j ++ lit "_" ++ y); exact E|].
    destruct y as [|d y _] using rev_ind.
    - exfalso. rewrite app_nil_r in E. change (lit "_") with [95%N] in E. rewrite !app_assoc in E. apply app_inj_tail in E. destruct E as [_ E]. discriminate E.
    - rewrite !app_assoc in E. apply app_inj_tail in E. destruct E as [E _]. exists x, (str_of_nat j ++ lit "_" ++ y). rewrite <- !app_assoc in E. exact E.
  Qed.
  Lemma restore_key n u s : In (protect_key n, u) prot -> (s = [] \/ s = [46%N]) -> restores prot (protect_key n ++ s) = u ++ s.
  Proof.
    intros Hi Hs. destruct (in_split _ _ Hi) as (l1 & l2 & E). assert (ND : NoDup (map fst prot)).
    { rewrite HK. apply FinFun.Injective_map_NoDup; [|apply seq_NoDup]. intros a b F. apply (key_prefix a b [] []). rewrite F. reflexivity. }
    assert (Hu : address u) by (rewrite Forall_forall in HA; exact (HA _ Hi)).
    assert (N1 : forall kv, In kv l1 -> fst kv <> protect_key n). { intros kv H1 F. rewrite E, map_app in ND. cbn [map fst] in ND. apply NoDup_remove_2 in ND. apply ND. apply in_or_app. left. rewrite <- F. apply in_map. exact H1. }
    assert (PK : forall kv, In kv l1 \/ In kv l2 -> exists j, fst kv = protect_key j) by (intros kv H; apply prot_key; rewrite E; apply in_or_app; destruct H; [left; assumption|right; right; assumption]).
    unfold restores. rewrite E, fold_left_app. cbn [fold_left fst snd]. fold (restores l1 (protect_key n ++ s)). rewrite (restores_id l1).
    - assert (S0 : replace (protect_key n ++ s) (protect_key n) u = u ++ s). { rewrite replace_hit by discriminate. f_equal. apply replace_id. intros x y F. assert (X : In 95%N s) by (rewrite F; apply in_or_app; right; left; reflexivity). destruct Hs as [-> | ->]; [destruct X|destruct X as [X|[]]; discriminate X]. }
      rewrite S0. apply restores_id. intros kv H2 x y F. destruct (PK kv (or_intror H2)) as (j & Ej). destruct kv as [a b]. cbn [fst] in *. subst a. exact (addr_other u j s x y Hu Hs F).
    - intros kv H1 x y F. destruct (PK kv (or_introl H1)) as (j & Ej). destruct kv as [a b]. pose proof (N1 _ H1) as N2. cbn [fst] in *. subst a. apply N2. f_equal. symmetry. exact (key_other n j s x y Hs F).
  Qed.
  Lemma tokens_same ws vs : Forall wok vs -> Forall2 (same prot) ws vs -> map (restores prot) (english_tokens vs) = english_tokens ws.
  Proof.
    intros HV HS. induction HS as [|w0 v ws vs L HS IH]; [reflexivity|]. inversion HV as [|? ? V1 V2]; subst. cbn [english_tokens]. rewrite map_app, (IH V2), (next_same prot ws vs HS). f_equal. destruct L as [v HN|u n m Hu Hi].
    - rewrite <- (map_id (word_tokens v (next_char ws))) at 2. apply map_ext_in. intros t0 Ht. apply restore_plain. intros H95. apply (word_tokens_in v _ t0 95%N Ht) in H95. destruct V1 as [C1 M1]. unfold written in H95. apply in_app_iff in H95. destruct H95 as [H95|H95]; [exact (core_no95 _ C1 HN H95)|]. destruct (e_mark v) as [m|]; [|destruct H95]. destruct H95 as [-> |[]]. cbn in M1. repeat destruct M1 as [M1|M1]; try discriminate M1. contradiction.
    - pose proof (restore_key n u [] Hi (or_introl eq_refl)) as R0. pose proof (restore_key n u [46%N] Hi (or_intror eq_refl)) as R1. rewrite !app_nil_r in R0.
      destruct V1 as [_ M1]. unfold word_tokens, dot_kept, written. cbn [e_mark e_core initial abbreviated core_tokens ctext] in *. destruct m as [m|]; [|cbn [map]; rewrite R0; reflexivity]. destruct (N.eqb_spec m 46) as [->|Nm]; cbn [andb].
      + match goal with |- context [if ?b then _ else _] => destruct b end; cbn [map app]; [exact (f_equal (fun z => [z]) R1)|rewrite R0]. f_equal. refine (f_equal (fun z => [z]) (restore_plain [46%N] _)). intros [F|[]]. discriminate F.
      + cbn [map app]. rewrite R0. f_equal. refine (f_equal (fun z => [z]) (restore_plain [m] _)). intros [F|[]]. subst m. cbn in M1. repeat destruct M1 as [M1|M1]; try discriminate M1. contradiction.
  Qed.
End Keys.
(** *** all that is protected *)
Lemma t_chars vs c : Forall wok vs -> In c (join [32%N] (map written vs)) -> wch c = true \/ c = 32%N.
Proof. intros HW H. apply join_in in H. destruct H as [->|(v & Hv & Hc)]; [auto|]. apply in_map_iff in Hv. destruct Hv as (w0 & <- & Hw). rewrite Forall_forall in HW. pose proof (wok_wch _ (HW w0 Hw)) as F. rewrite Forall_forall in F. auto. Qed.
Lemma must_none vs l k : Forall wok vs -> forallb caseless l = true -> mustb l (nth k re_protect Eps) = true -> forallb (fun c => negb (wch c) && negb (c =? 32)%N) l = true -> search A true (nth k re_protect Eps) (join [32%N] (map written vs)) = None.
Proof.
  intros HW Hl Hm Hc. apply search_none. intros x y E. apply (no_must_match A ascii_udb_ok true l); [exact Hl|exact Hm|]. intros c Hi Hil. rewrite forallb_forall in Hc. specialize (Hc c Hil). apply andb_true_iff in Hc. destruct Hc as [C1 C2]. apply negb_true_iff in C1, C2. destruct (t_chars vs c HW) as [F|F]; [rewrite E; apply in_or_app; auto|congruence|]. subst c. discriminate C2.
Qed.
Lemma loop_none f p prot i t : search A true p t = None -> protect_loop A f p prot i t = Ok (prot, i, t).
Proof. intros S. destruct f; cbn [protect_loop]; rewrite S; reflexivity. Qed.
Lemma addresses_in ws u m : In (EWord (Web u) m) ws -> In u (addresses ws).
Proof. intros H. unfold addresses. apply in_flat_map. exists (EWord (Web u) m). split; [exact H|left; reflexivity]. Qed.
Lemma protect_web ws : Forall aok ws -> SEnglish.apart ws -> exists prot k vs, protect_text A (join [32%N] (map written ws)) = Ok (prot, join [32%N] (map written vs)) /\ track ws prot k vs /\ Forall wok vs.
Proof.
  intros HA Hap. assert (HW : Forall gw ws) by (eapply Forall_impl; [|exact HA]; exact aok_gw). set (t := join [32%N] (map written ws)).
  assert (S0 : search A true (nth 0 re_protect Eps) t = None) by (apply search_none; apply (protect0 ws HW)). assert (S1 : search A true (nth 1 re_protect Eps) t = None) by (apply search_none; apply (protect1 ws HW)).
  assert (E : re_protect = [nth 0 re_protect Eps; nth 1 re_protect Eps; nth 2 re_protect Eps; nth 3 re_protect Eps; nth 4 re_protect Eps]) by reflexivity.
  assert (T0 : track ws [] 0 ws).
  { constructor; [|exact HA|reflexivity|constructor|].
    - clear. induction ws as [|v ws IH]; constructor; [left; reflexivity|exact IH].
    - intros u m u2 m2 H1 H2 _ _. apply Hap; eapply addresses_in; eassumption. }
  destruct (protect_text_ok A ascii_udb_ok t) as ([prot t'] & P). pose proof P as P0. unfold protect_text in P. rewrite E in P. cbn [foldM] in P. rewrite (loop_none _ _ _ _ _ S0) in P. cbn [rbind] in P. rewrite (loop_none _ _ _ _ _ S1) in P. cbn [rbind] in P.
  destruct (protect_loop A (length t) web [] 1 t) as [[[prot1 i1] t1]|e] eqn:EL; [|discriminate P]. destruct (web_loop ws _ _ _ _ _ _ _ T0 EL) as (vs & k & -> & -> & HT & HV). cbn [rbind] in P.
  rewrite (loop_none _ _ _ _ _ (must_none vs [47%N] 3 HV eq_refl eq_refl eq_refl)) in P. cbn [rbind] in P. rewrite (loop_none _ _ _ _ _ (must_none vs [40; 41]%N 4 HV eq_refl eq_refl eq_refl)) in P. cbn [rbind] in P. apply ok_inj in P. injection P as <- <-.
  exists prot1, k, vs. auto.
Qed.
(** *** the theorem *)
Lemma words_of_in U text l c : words_of U text l -> In c text -> u_space U c = true \/ exists w0, In w0 l /\ In c w0.
Proof.
  induction 1 as [s H|s w0 rest l Hs Hn Hw Hr H IH]; intros Hi; [auto|]. apply in_app_iff in Hi. destruct Hi as [Hi|Hi]; [auto|]. apply in_app_iff in Hi. destruct Hi as [Hi|Hi].
  - right. exists w0. split; [left; reflexivity|exact Hi].
  - destruct (IH Hi) as [F|(w1 & H1 & H2)]; [auto|]. right. exists w1. split; [right; exact H1|exact H2].
Qed.
Lemma lit_sp : lit " " = [32%N].
Proof. reflexivity. Qed.
Lemma restores_fold (prot : dict str str) t : fold_left (fun t '(key, value) => replace t key value) prot t = restores prot t.
Proof. revert t. induction prot as [|[a b] prot IH]; intros t; [reflexivity|]. unfold restores in *. cbn [fold_left fst snd]. apply IH. Qed.
Lemma tokenize_steps U t prot t' x : t <> [] -> sanitize U tk_sanitization t = t -> protect_text U t = Ok (prot, t') ->
  split_ws (u_space U) (restores prot (fold_left (apply_rule U) re_reattach (fold_left (apply_rule U) re_restore (join [32%N] (split_ws (u_space U) (fold_left (apply_rule U) re_segment_off
    (join [32%N] (flat_map (split_dots U) (split_ws (u_space U) (apply_rule U (fold_left (apply_rule U) re_no_split t') re_always_split)))))))) )) = x -> tokenize U t = Ok x.
Proof. intros N S P <-. destruct t as [|c t]; [congruence|]. unfold tokenize. rewrite S, P, lit_sp. cbv beta iota delta [rbind]. rewrite restores_fold. exact eq_refl. Qed.
Section Theorem_.
  Context (U : udb) (OK : udb_ok U).
  Definition QS : list char := [8216; 8217; 8242; 8220; 8221; 8243; 8211; 8212]%N.
  Lemma sanitize_words text l : split_ws (u_space U) text = l -> (forall c, In c text -> u_space U c = true \/ low c) -> sanitize U tk_sanitization text = join [32%N] l.
  Proof.
    intros E HL. unfold sanitize.
    assert (R : fold_left (apply_rule U) tk_sanitization (strip (u_space U) text) = strip (u_space U) text).
    { assert (HC : forall c, In c (strip (u_space U) text) -> ~ In c QS).
      { intros c Hc Hq. assert (In c text) as Hct.
        { destruct (lstrip_split U text) as (p & E1 & _). unfold strip in Hc. apply in_rev in Hc. destruct (lstrip_split U (rev (lstrip (u_space U) text))) as (q & E2 & _). assert (In c (rev (lstrip (u_space U) text))) as H by (rewrite E2, in_app_iff; auto). apply in_rev in H. rewrite E1, in_app_iff. auto. }
        destruct (HL c Hct) as [F|H2].
        - rewrite (ok_symbols_space U OK) in F; [discriminate F|]. cbn in Hq |- *. tauto.
        - unfold low in H2. cbn in Hq. repeat destruct Hq as [<-|Hq]; try discriminate H2. contradiction. }
      assert (G : forall rules, forallb (fun ru => mustb QS (r_pat ru)) rules = true -> fold_left (apply_rule U) rules (strip (u_space U) text) = strip (u_space U) text).
      { induction rules as [|ru rules IH]; [reflexivity|]. cbn [forallb]. intros H. apply andb_true_iff in H. destruct H as [H1 H2]. cbn [fold_left]. unfold apply_rule at 2. rewrite (sub_must U OK _ QS) by (try reflexivity; assumption). apply IH. exact H2. }
      apply G. reflexivity. }
    rewrite R, (words_strip U), E. reflexivity.
  Qed.
  Lemma written_low v : aok v -> Forall low (written v).
  Proof. intros H. destruct (aok_gw v H) as [F _]. eapply Forall_impl; [|exact F]. intros c Hc. apply Hc. Qed.
  Theorem tokenize_english text ws : ws <> [] -> SEnglish.english ws -> SEnglish.apart ws -> words_of U text (map written ws) -> tokenize U text = Ok (english_tokens ws).
  Proof.
    intros Hn He Hap Hw. pose proof (english_aok ws He) as HA. assert (HW : Forall gw ws) by (eapply Forall_impl; [|exact HA]; exact aok_gw).
    assert (HL : Forall (Forall low) (map written ws)). { apply Forall_forall. intros w0 H0. apply in_map_iff in H0. destruct H0 as (v & <- & Hv). rewrite Forall_forall in HA. apply written_low. auto. }
    assert (S : sanitize U tk_sanitization text = join [32%N] (map written ws)). { apply sanitize_words; [apply words_of_fun; exact Hw|]. intros c Hc. destruct (words_of_in U text _ c Hw Hc) as [F|(w0 & H1 & H2)]; [auto|]. right. rewrite Forall_forall in HL. specialize (HL w0 H1). rewrite Forall_forall in HL. auto. }
    set (t := join [32%N] (map written ws)) in *.
    assert (LT : Forall low t). { apply Forall_forall. intros c Hc. apply (t_lt ws HW). exact Hc. }
    assert (NT : t <> []). { unfold t. destruct ws as [|v ws]; [congruence|]. rewrite (join_tail written). inversion HW as [|? ? (_ & (d & r & E & _) & _) _]; subst. rewrite E. discriminate. }
    assert (NX : text <> []). { intros ->. apply NT. rewrite <- S. reflexivity. }
    assert (WU : Forall (fun x => x <> [] /\ Forall (fun c => u_space U c = false) x) (map written ws)). { rewrite <- (words_of_fun U text _ Hw). apply split_ws_words. }
    assert (S2 : sanitize U tk_sanitization t = t).
    { apply sanitize_words; [|intros c Hc; right; rewrite Forall_forall in LT; auto]. apply split_ws_join; [rewrite (ok_space U OK) by reflexivity; reflexivity|exact WU]. }
    assert (E1 : tokenize U text = tokenize U t). { clearbody t. clear - S S2 NT NX. destruct text as [|c0 text]; [congruence|]. destruct t as [|c1 t]; [congruence|]. unfold tokenize. rewrite S, S2. exact eq_refl. }
    rewrite E1, (tokenize_ascii U OK t LT).
    assert (S3 : sanitize A tk_sanitization t = t) by (rewrite <- (proj1 (sanitize_same U OK tk_sanitization t ok_tk_sanitization LT)); exact S2).
    destruct (protect_web ws HA Hap) as (prot & k & vs & P & HT & HV). fold t in P. destruct HT as [T1 _ T3 T4 _].
    pose proof (linked_same prot ws vs (english_cores ws He) T1 HV) as HS. pose proof (english_same prot ws vs HS He) as HE. pose proof (rules_tokens vs HE) as R.
    apply (tokenize_steps A t prot _ _ NT S3 P). rewrite words_restores; [rewrite R; exact (tokens_same prot k T3 T4 ws vs HV HS)|].
    apply Forall_forall. intros kv Hkv. destruct (prot_key prot k T3 kv Hkv) as (n & En). rewrite Forall_forall in T4. specialize (T4 kv Hkv). destruct kv as [a b]. cbn [fst snd] in *. subst a. split; [|split; [apply addr_nonempty|apply addr_space]; exact T4].
    split; [discriminate|]. eapply Forall_impl; [|apply (key_an (protect_key n)); exists n; reflexivity]. intros c Hc. apply wch_space. unfold an in Hc. unfold wch. rewrite !orb_true_iff in Hc |- *. destruct Hc as [[Hc|Hc]|Hc]; auto. right. apply N.eqb_eq in Hc. subst c. reflexivity.
  Qed.
End Theorem_.
