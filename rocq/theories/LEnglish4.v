(** Proofs about the tokenizer on ordinary English text: the rules word by word. *)
From Coq Require Import Ascii String.
From Coq Require Import List NArith ZArith Arith Bool Lia.
From Verif Require Import PyBase Regex MTokenizer STok SEnglish LBase LText LUdb LRegex LSub LTok LTokWords LRun LEnglish LEnglish2 LEnglish3.
Import ListNotations.
Local Open Scope nat_scope.

Definition SY : list str := map lit [","; "."; "!"; "?"; ";"; ":"]%string ++ CL.
Definition base (x : mw) : Prop :=
  match x with
  | MC c t => core_ok c /\ tl_ok t /\ match c, t with Num n, TMark m => m = 46%N -> ~ In 46%N n | Num n, TKept => ~ In 46%N n | Short _ _, TKept => False | _, _ => True end
  | MSym s => In s SY
  end.
Definition wch (c : char) : bool := a_letter c || a_digit c || existsb (N.eqb c) (lit "'_,.!?;:-").
Definition WCH : list char := Eval vm_compute in filter wch ASCII.
Lemma wch_lt c : wch c = true -> (c < 128)%N.
Proof.
  unfold wch. rewrite !orb_true_iff. intros [[H|H]|H]; [apply letter_lt|apply digit_lt|]; try exact H. apply mem_in in H. cbn in H. repeat (destruct H as [<-|H]; [reflexivity|]). contradiction.
Qed.
Lemma wch_in c : wch c = true -> In c WCH.
Proof. intros H. apply (class_in wch); [vm_compute; reflexivity|apply wch_lt; exact H|exact H]. Qed.
Lemma letters_wch p : Forall (fun c => a_letter c = true) p -> Forall (fun c => wch c = true) p.
Proof. apply Forall_impl. intros c H. unfold wch. rewrite H. reflexivity. Qed.
Lemma number_wch n : number n -> Forall (fun c => wch c = true) n.
Proof.
  assert (D : forall d, digits d -> Forall (fun c => wch c = true) d) by (intros d [_ H]; eapply Forall_impl; [|exact H]; intros c Hc; unfold wch; rewrite Hc, orb_true_r; reflexivity).
  induction 1 as [d Hd|d s n Hd Hs Hn IH]; [auto|]. apply Forall_app. split; [auto|]. constructor; [|exact IH]. destruct Hs as [-> | ->]; reflexivity.
Qed.
Lemma clitic_wch c : In (map uncapital c) contracted -> Forall (fun c => wch c = true) c.
Proof. intros H. apply Forall_forall. apply forallb_forall. apply (clitic_all (forallb wch)); [vm_compute; reflexivity|exact H]. Qed.
Lemma hyph_chars q p d : core_ok (Hyph q p) -> In d (hyphens q ++ p) -> a_letter d = true \/ d = 45%N.
Proof.
  intros (_ & Hq & [_ Hp] & _) H. apply in_app_iff in H. destruct H as [H|H]; [|left; rewrite Forall_forall in Hp; exact (Hp d H)]. unfold hyphens in H. apply in_flat_map in H. destruct H as (w0 & Hw & H).
  apply in_app_iff in H. destruct H as [H|[H|[]]]; [|right; symmetry; exact H]. rewrite Forall_forall in Hq. destruct (Hq w0 Hw) as [[_ Hl] _]. rewrite Forall_forall in Hl. left. exact (Hl d H).
Qed.
Lemma hyph_no q p d : core_ok (Hyph q p) -> a_letter d = false -> d <> 45%N -> ~ In d (hyphens q ++ p).
Proof. intros H H1 H2 Hi. destruct (hyph_chars q p d H Hi); congruence. Qed.
Lemma key_an k : keyp k -> Forall (fun c => an c = true) k.
Proof.
  intros [n ->]. unfold protect_key. rewrite !Forall_app. split; [repeat constructor|]. split; [|repeat constructor]. eapply Forall_impl; [|apply str_of_nat_digits]. intros c Hc. cbn beta in Hc. apply an_digit. unfold a_digit. rewrite andb_true_iff, !N.leb_le. lia.
Qed.
Lemma key_no k d : keyp k -> an d = false -> ~ In d k.
Proof. intros H Hd Hi. pose proof (key_an k H) as F. rewrite Forall_forall in F. rewrite (F d Hi) in Hd. discriminate. Qed.
Lemma core_wch c : core_ok c -> Forall (fun c => wch c = true) (ctext c).
Proof.
  destruct c as [p|n|p c|q p|key]; [intros H; apply letters_wch, H|intros H; apply number_wch, H|intros H|intros H|intros H].
  - apply Forall_app. split; [apply letters_wch, H|apply clitic_wch, H].
  - apply Forall_forall. intros d Hd. destruct (hyph_chars q p d H Hd) as [E| ->]; [|reflexivity]. unfold wch. rewrite E. reflexivity.
  - eapply Forall_impl; [|apply key_an; exact H]. intros d Hd. apply (class_all an); [vm_compute; reflexivity|apply an_lt; exact Hd|exact Hd].
Qed.
Lemma base_wch x : base x -> Forall (fun c => wch c = true) (mstr x).
Proof.
  destruct x as [c t|s]; cbn [base mstr].
  - intros (Hc & Ht & _). apply Forall_app. split; [apply core_wch; exact Hc|]. destruct t as [|m0|]; cbn [tstr]; [constructor| |unfold nsd; repeat constructor]. cbn in Ht. repeat destruct Ht as [<-|Ht]; try (repeat constructor). contradiction.
  - intros H. apply Forall_forall. apply forallb_forall. apply (proj1 (forallb_forall (forallb wch) SY)); [vm_compute; reflexivity|exact H].
Qed.
Lemma wch_space c : wch c = true -> u_space A c = false.
Proof. intros H. apply negb_true_iff. apply (class_all wch (fun c => negb (u_space A c))); [vm_compute; reflexivity|apply wch_lt; exact H|exact H]. Qed.
Lemma base_nonempty x : base x -> mstr x <> [].
Proof.
  destruct x as [c t|s]; cbn [base mstr].
  - intros (Hc & _) E. destruct (core_head c Hc) as (d & r & E2 & _). rewrite E2 in E. discriminate.
  - intros H ->. cbn in H. repeat (destruct H as [H|H]; [discriminate H|]). contradiction.
Qed.
Lemma base_word x : base x -> mstr x <> [] /\ Forall (fun c => u_space A c = false) (mstr x).
Proof. intros H. split; [apply base_nonempty; exact H|]. eapply Forall_impl; [|apply base_wch; exact H]. intros c. apply wch_space. Qed.
Lemma words_join xs : Forall base xs -> words (join [32%N] (map mstr xs)) = map mstr xs.
Proof. intros H. apply split_ws_join; [reflexivity|]. apply Forall_map. eapply Forall_impl; [|exact H]. intros x. apply base_word. Qed.
Lemma word_words c : core_ok c -> words (ctext c) = [mstr (MC c TNone)].
Proof.
  intros H. cbn [mstr tstr]. rewrite app_nil_r. apply split_ws_word.
  - destruct (core_head c H) as (d & r & E & _). rewrite E. discriminate.
  - eapply Forall_impl; [|apply core_wch; exact H]. intros d. apply wch_space.
Qed.
Lemma in_words c : forall n a, length a <= n -> In c a -> u_space A c = false -> exists w0, In w0 (words a) /\ In c w0.
Proof.
  induction n as [|n IH]; intros a Hn Hi Hc; [destruct a; [contradiction|cbn in Hn; lia]|]. destruct a as [|d a]; [contradiction|]. cbn [length] in Hn. destruct (u_space A d) eqn:Ed.
  - destruct Hi as [->|Hi]; [congruence|]. rewrite split_ws_cons_space by exact Ed. apply IH; [lia|exact Hi|exact Hc].
  - destruct (words_head A d a Ed) as (w0 & rest & E & W & L & _). assert (Hi2 : In c (w0 ++ rest)) by (rewrite <- E; exact Hi). apply in_app_iff in Hi2. destruct Hi2 as [Hi2|Hi2].
    + exists w0. split; [|exact Hi2]. match goal with |- In _ ?z => assert (EW : z = w0 :: words rest) by exact W; rewrite EW end. left. reflexivity.
    + destruct (IH rest ltac:(unfold str, char in *; lia) Hi2 Hc) as (w1 & H1 & H2). exists w1. split; [|exact H2]. match goal with |- In _ ?z => assert (EW : z = w0 :: words rest) by exact W; rewrite EW end. right. exact H1.
Qed.
(** a rule that needs a character the text does not have *)
Lemma must_words l ru a xs (P : mw -> Prop) : forallb caseless l = true -> forallb (fun c => negb (u_space A c)) l = true -> mustb l (r_pat ru) = true -> words a = map mstr xs -> Forall P xs ->
  (forall x c, P x -> In c (mstr x) -> ~ In c l) -> apply_rule A a ru = a.
Proof.
  intros H1 H2 Hm Ha HP HC. unfold apply_rule. apply (sub_must A ascii_udb_ok _ l); [exact H1|exact Hm|]. intros c Hc Hl. rewrite forallb_forall in H2. specialize (H2 c Hl). apply negb_true_iff in H2.
  destruct (in_words c (length a) a (le_n _) Hc H2) as (w0 & Hw & Hi). rewrite Ha in Hw. apply in_map_iff in Hw. destruct Hw as (x & <- & Hx). rewrite Forall_forall in HP. exact (HC x c (HP x Hx) Hi Hl).
Qed.
Lemma must_base l ru a xs : forallb caseless l = true -> forallb (fun c => negb (u_space A c) && negb (wch c)) l = true -> mustb l (r_pat ru) = true -> words a = map mstr xs -> Forall base xs -> apply_rule A a ru = a.
Proof.
  intros H1 H2 Hm Ha HP. rewrite forallb_forall in H2. apply (must_words l ru a xs base H1); [|exact Hm|exact Ha|exact HP|].
  - apply forallb_forall. intros c Hc. specialize (H2 c Hc). apply andb_true_iff in H2. tauto.
  - intros x c Hx Hc Hl. specialize (H2 c Hl). apply andb_true_iff in H2. destruct H2 as [_ H2]. apply negb_true_iff in H2. pose proof (base_wch x Hx) as W. rewrite Forall_forall in W. rewrite (W c Hc) in H2. discriminate.
Qed.

(** a rule on the words *)
Section Step.
  Context (ru : rule).
  Notation r := (r_pat ru). Notation ic := (r_ic ru).
  Context (ok : mw -> Prop) (OKB : forall x, ok x -> base x).
  Context (HN : nullable r = false) (HS : forallb (fun c => negb (firstb A ic r c)) SP = true).
  Lemma space_none b c a : u_space A c = true -> match_at A ic r b (c :: a) = None.
  Proof. intros H. apply first_none; [exact HN|]. apply space_in in H. rewrite forallb_forall in HS. apply negb_true_iff. apply HS. exact H. Qed.
  Lemma step_any (F : mw -> list mw) a xs :
    (forall b x rest, ok x -> sfirst b -> sfirst rest -> exists fx, sr A ic r (r_rep ru) b (mstr x ++ rest) = fx ++ sr A ic r (r_rep ru) (rev (mstr x) ++ b) rest /\ words fx = map mstr (F x)) ->
    words a = map mstr xs -> Forall ok xs -> words (apply_rule A a ru) = map mstr (flat_map F xs).
  Proof.
    intros Hw Ha HO. apply (sub_words_any A ic r (r_rep ru) HN mstr F ok (fun _ => True)); auto. intros b c a0 H _. apply space_none. exact H.
  Qed.
  Lemma step (f : mw -> str) (F : mw -> list mw) a xs :
    (forall b x rest, ok x -> sfirst b -> sfirst rest -> sr A ic r (r_rep ru) b (mstr x ++ rest) = f x ++ sr A ic r (r_rep ru) (rev (mstr x) ++ b) rest) ->
    (forall x, ok x -> words (f x) = map mstr (F x)) -> words a = map mstr xs -> Forall ok xs -> words (apply_rule A a ru) = map mstr (flat_map F xs).
  Proof.
    intros Hw HF Ha HO. apply (sub_words A ic r (r_rep ru) HN mstr f F ok (fun _ => True)); auto. intros b c a0 H _. apply space_none. exact H.
  Qed.
  Lemma flat_id (xs : list mw) : flat_map (fun x => [x]) xs = xs.
  Proof. induction xs as [|x xs IH]; [reflexivity|]. cbn. rewrite IH. reflexivity. Qed.
  Lemma step_id a xs : (forall b x rest u z, ok x -> sfirst b -> sfirst rest -> mstr x = u ++ z -> z <> [] -> match_at A ic r (rev u ++ b) (z ++ rest) = None) ->
    words a = map mstr xs -> Forall ok xs -> words (apply_rule A a ru) = map mstr xs.
  Proof.
    intros H Ha HO. rewrite <- (flat_id xs). apply (step mstr (fun x => [x])); [| |exact Ha|exact HO].
    - intros b x rest Hx Hb Hr. apply sr_skips; [exact HN|]. intros u z E Hz. apply (H b x rest u z); assumption.
    - intros x Hx. destruct (base_word x (OKB x Hx)) as [H1 H2]. apply split_ws_word; assumption.
  Qed.
End Step.
(** positions in a word *)
Lemma split_at {T} (u z p q : list T) : u ++ z = p ++ q -> z <> [] -> (exists z', z = z' ++ q /\ p = u ++ z' /\ z' <> []) \/ (exists u', u = p ++ u' /\ q = u' ++ z).
Proof.
  revert p. induction u as [|c u IH]; intros p E Hz.
  - cbn in E. subst z. destruct p as [|d p]; [right; exists []; auto|]. left. exists (d :: p). split; [reflexivity|]. split; [reflexivity|discriminate].
  - destruct p as [|d p]; [right; exists (c :: u); auto|]. injection E as -> E. destruct (IH p E Hz) as [(z' & -> & -> & H)|(u' & -> & ->)]; [left; exists z'; auto|right; exists u'; auto].
Qed.
(** two texts that start with a word each *)
Lemma word_prefix (x z y rest : str) : Forall (fun c => u_space A c = false) x -> Forall (fun c => u_space A c = false) z -> sfirst y -> sfirst rest -> x ++ y = z ++ rest -> x = z /\ y = rest.
Proof.
  intros Hx. revert z. induction Hx as [|c x Hc Hx IH]; intros z Hz Hy Hr E; destruct z as [|d z]; cbn [app] in E.
  - auto.
  - exfalso. specialize (Hy d _ E). inversion Hz; congruence.
  - exfalso. specialize (Hr c _ (eq_sym E)). congruence.
  - injection E as -> E. inversion Hz; subst. destruct (IH z H2 Hy Hr E) as [-> ->]. auto.
Qed.
Lemma quiet_at ru q b z rest : quiet (r_ic ru) (r_pat ru) q = true -> z <> [] -> (forall c z', z = c :: z' -> (c < 128)%N /\ q c = true) -> match_at A (r_ic ru) (r_pat ru) b (z ++ rest) = None.
Proof. intros HQ Hz H. destruct z as [|c z]; [congruence|]. destruct (H c z eq_refl). cbn [app]. apply (quiet_none _ _ q); assumption. Qed.

(** *** feet *)
Lemma no39_num n : number n -> ~ In 39%N n.
Proof.
  assert (D : forall d, digits d -> ~ In 39%N d) by (intros d [_ H] Hi; rewrite Forall_forall in H; specialize (H _ Hi); discriminate H).
  induction 1 as [d Hd|d s n Hd Hs Hn IH]; [auto|]. rewrite in_app_iff. intros [H|[H|H]]; [exact (D d Hd H)| |exact (IH H)]. destruct Hs as [-> | ->]; discriminate.
Qed.
Lemma rule_feet a xs : words a = map mstr xs -> Forall base xs -> words (apply_rule A a (ns 5)) = map mstr xs.
Proof.
  apply step_id; [auto|reflexivity|vm_compute; reflexivity|]. intros b x rest u z Hx _ Hr E Hz.
  destruct z as [|c z]; [congruence|]. pose proof (base_wch x Hx) as W. rewrite E in W. apply Forall_app in W. destruct W as [_ W]. inversion W as [|? ? W1 W2]; subst.
  destruct (a_digit c) eqn:Ed.
  - destruct x as [co t|s].
    + destruct (match_at A (r_ic (ns 5)) (r_pat (ns 5)) (rev u ++ b) ((c :: z) ++ rest)) as [st|] eqn:EM; [|reflexivity]. exfalso.
      destruct (mrel_lang _ _ _ _ _ (match_at_some _ _ _ _ _ _ EM)) as (w0 & Aw & _ & L). cbn [aft] in Aw. cbn [ns nth re_no_split r_pat r_ic mk seqs lang] in L.
      destruct L as (e0 & w1 & -> & E0 & L). assert (e0 = []) by (unfold after_sp in E0; cbn in E0; exact E0). subst e0. destruct L as (nn & qq & -> & Ln & (q & -> & Hq)).
      assert (Hq39 : q = 39%N) by (apply (caseless_range A ascii_udb_ok true 39%N q eq_refl); unfold cset_match, ch, cc in Hq; cbn [cs_neg cs_items existsb] in Hq; rewrite xorb_false_l, orb_false_r in Hq; exact Hq). subst q.
      assert (NN : Forall (fun c => u_space A c = false) nn).
      { unfold MTokenizer.number, star in Ln. cbn [lang] in Ln. destruct Ln as (x1 & x2 & -> & (d1 & -> & Hd1) & (l & -> & Hl)).
        assert (CS : forall d, cset_match A true (cls [CDigit; CRange 44 44; CRange 46 46]) d = true -> u_space A d = false).
        { intros d Hd. destruct (u_space A d) eqn:Es; [|reflexivity]. exfalso. apply space_in in Es. cbn in Es. repeat (destruct Es as [<-|Es]; [vm_compute in Hd; discriminate Hd|]). exact Es. }
        apply Forall_app. split.
        - constructor; [|constructor]. apply CS. revert Hd1. unfold cset_match, cls. cbn [cs_neg cs_items existsb]. rewrite !xorb_false_l. intros H. apply orb_true_iff in H. destruct H as [H|H]; [rewrite H; reflexivity|discriminate].
        - clear - Hl CS. induction Hl as [|y l Hy Hl IH]; [constructor|]. cbn [concat]. apply Forall_app. split; [|exact IH]. destruct Hy as (d & -> & Hd). constructor; [apply CS; exact Hd|constructor]. }
      (* the quote comes before any space, so it is in the word *)
      assert (I39 : In 39%N (c :: z)).
      { clear - Aw NN Hr. revert Aw. generalize (c :: z) as y. cbn [app]. intros y. revert y. induction NN as [|e nn He NN IH]; intros y Aw; cbn [app] in Aw.
        - destruct y as [|f y]; cbn [app] in Aw; [specialize (Hr _ _ Aw); discriminate Hr|]. injection Aw as -> _. left. reflexivity.
        - destruct y as [|f y]; cbn [app] in Aw; [specialize (Hr _ _ Aw); congruence|]. injection Aw as -> Aw. right. apply IH. exact Aw. }
      assert (I39b : In 39%N (mstr (MC co t))) by (rewrite E, in_app_iff; auto).
      cbn [mstr] in I39b. apply in_app_iff in I39b. destruct Hx as (Hc & Ht & _). destruct co as [p|n|p cc0|q p|key].
      * cbn [ctext core_ok SEnglish.core_ok] in *. destruct I39b as [I|I]; [destruct Hc as [_ Hc]; rewrite Forall_forall in Hc; specialize (Hc _ I); discriminate Hc|]. destruct t as [|m0|]; cbn in I; [contradiction| |repeat destruct I as [I|I]; try discriminate I; contradiction].
        destruct I as [->|[]]. cbn in Ht. repeat destruct Ht as [Ht|Ht]; try discriminate Ht; contradiction.
      * cbn [ctext core_ok SEnglish.core_ok] in *. destruct I39b as [I|I]; [exact (no39_num n Hc I)|]. destruct t as [|m0|]; cbn in I; [contradiction| |repeat destruct I as [I|I]; try discriminate I; contradiction].
        destruct I as [->|[]]. cbn in Ht. repeat destruct Ht as [Ht|Ht]; try discriminate Ht; contradiction.
      * (* no digit in a contracted word *)
        assert (ND : forall d, In d (mstr (MC (Short p cc0) t)) -> a_digit d = false).
        { cbn [mstr ctext core_ok SEnglish.core_ok] in *. destruct Hc as ([_ Hp] & _ & Hcl). intros d Hd. apply in_app_iff in Hd. destruct Hd as [Hd|Hd].
          - apply in_app_iff in Hd. destruct Hd as [Hd|Hd].
            + rewrite Forall_forall in Hp. specialize (Hp _ Hd). clear - Hp. unfold a_letter, upper_case, lower_case, a_digit in *. apply andb_false_iff. rewrite orb_true_iff, !andb_true_iff, !N.leb_le in Hp. rewrite !N.leb_gt. lia.
            + apply negb_true_iff. revert d Hd. apply forallb_forall. apply (clitic_all (forallb (fun d => negb (a_digit d)))); [vm_compute; reflexivity|exact Hcl].
          - destruct t as [|m0|]; cbn in Hd; [contradiction| |repeat (destruct Hd as [<-|Hd]; [reflexivity|]); contradiction]. destruct Hd as [->|[]]. cbn in Ht. repeat (destruct Ht as [<-|Ht]; [reflexivity|]). contradiction. }
        rewrite (ND c) in Ed; [discriminate|]. rewrite E, in_app_iff. right. left. reflexivity.
      * cbn [ctext] in I39b. destruct I39b as [I|I]; [revert I; apply (hyph_no q p); [exact Hc|reflexivity|discriminate]|]. destruct t as [|m0|]; cbn in I; [contradiction| |repeat destruct I as [I|I]; try discriminate I; contradiction].
        destruct I as [->|[]]. cbn in Ht. repeat destruct Ht as [Ht|Ht]; try discriminate Ht; contradiction.
      * cbn [ctext] in I39b. destruct I39b as [I|I]; [revert I; apply key_no; [exact Hc|reflexivity]|]. destruct t as [|m0|]; cbn in I; [contradiction| |repeat destruct I as [I|I]; try discriminate I; contradiction].
        destruct I as [->|[]]. cbn in Ht. repeat destruct Ht as [Ht|Ht]; try discriminate Ht; contradiction.
    + cbn [mstr base] in *. exfalso. assert (ND : forallb (forallb (fun d => negb (a_digit d))) SY = true) by (vm_compute; reflexivity). rewrite forallb_forall in ND. specialize (ND s Hx). rewrite forallb_forall in ND. specialize (ND c). rewrite Ed in ND. discriminate ND. rewrite E, in_app_iff. right. left. reflexivity.
  - apply (quiet_at (ns 5) (fun c => negb (a_digit c))); [vm_compute; reflexivity|discriminate|]. intros e z' Ee. injection Ee as <- _. split; [apply wch_lt; exact W1|rewrite Ed; reflexivity].
Qed.
