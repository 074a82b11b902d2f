(** Proofs about the tokenizer on ordinary English text: commas, quotes, contractions, and the last rules. *)
From Coq Require Import Ascii String.
From Coq Require Import List NArith ZArith Arith Bool Lia.
From Verif Require Import PyBase Regex MTokenizer STok SEnglish LBase LUdb LRegex LSub LTok LTokWords LRun LEnglish LEnglish2 LEnglish3 LEnglish4 LEnglish5 LEnglish6.
Import ListNotations.
Local Open Scope nat_scope.

Lemma ok3_base x : ok3 x -> base x.
Proof. intros [H _]. exact H. Qed.
(** the words with the marks [ms] at their end, and the words [ss] on their own *)
Definition okm (ms : list char) (ss : list str) (x : mw) : Prop := base x /\ match x with MC c (TMark m) => In m ms \/ (m = 46%N /\ initial c = true) | MC _ _ => True | MSym s => In s ss end.
Lemma okm_base ms ss x : okm ms ss x -> base x.
Proof. intros [H _]. exact H. Qed.
(** rules with symbols that are not in the text *)
Definition SYM : list char := lit "*+&/%><".
Lemma symbols_id rules a xs : forallb (fun ru => mustb SYM (r_pat ru)) rules = true -> words a = map mstr xs -> Forall base xs -> fold_left (apply_rule A) rules a = a.
Proof.
  intros HR Ha HB. revert HR. induction rules as [|ru rules IH]; [reflexivity|]. intros H. cbn [forallb] in H. apply andb_true_iff in H. destruct H as [H1 H2]. cbn [fold_left]. rewrite (must_base SYM ru a xs); [apply IH; exact H2|reflexivity|vm_compute; reflexivity|exact H1|exact Ha|exact HB].
Qed.

(** *** colons and commas *)
Definition nondig (c : char) : bool := a_letter c || (c =? 95)%N.
Lemma letter_nondig c : a_letter c = true -> nondig c = true.
Proof. unfold nondig. intros ->. reflexivity. Qed.
Definition is_num (c : core) : bool := match c with Num _ => true | _ => false end.
Lemma core_last_rev c : core_ok c -> exists d r, rev (ctext c) = d :: r /\ if is_num c then a_digit d = true else nondig d = true.
Proof.
  intros Hc. destruct c as [p|n|p c|q p|key]; cbn [core_ok SEnglish.core_ok ctext is_num] in *.
  - destruct Hc as [Hn Hp]. destruct p as [|d p _] using rev_ind; [congruence|]. rewrite rev_app_distr. cbn [rev app]. exists d, (rev p). split; [reflexivity|]. apply Forall_app in Hp. destruct Hp as [_ Hp]. inversion Hp; subst; apply letter_nondig; assumption.
  - exact (number_last n Hc).
  - destruct Hc as (_ & _ & Hc). destruct (clitic_parts c Hc) as (uu & v & -> & _ & Hv & Hn & _). destruct v as [|e v _] using rev_ind; [congruence|]. rewrite app_comm_cons, !app_assoc, rev_app_distr. cbn [rev app]. eexists; eexists. split; [reflexivity|]. apply Forall_app in Hv. destruct Hv as [_ Hv]. inversion Hv; subst; apply letter_nondig; assumption.
  - destruct Hc as (_ & _ & [Hn Hp] & _). destruct p as [|d p _] using rev_ind; [congruence|]. rewrite app_assoc, rev_app_distr. cbn [rev app]. eexists; eexists. split; [reflexivity|]. apply Forall_app in Hp. destruct Hp as [_ Hp]. inversion Hp; subst; apply letter_nondig; assumption.
  - destruct Hc as [n ->]. unfold protect_key. rewrite !rev_app_distr. eexists; eexists. split; [reflexivity|]. reflexivity.
Qed.
Definition nots (k c : char) : bool := negb (c =? k)%N.
Lemma core_chars c : core_ok c -> Forall (fun d => an d = true \/ In d [39; 44; 45; 46]%N) (ctext c).
Proof.
  assert (L : forall p, Forall (fun c => a_letter c = true) p -> Forall (fun d => an d = true \/ In d [39; 44; 45; 46]%N) p) by (intros p; apply Forall_impl; intros d Hd; left; unfold an; rewrite Hd; reflexivity).
  assert (D : forall d, digits d -> Forall (fun d => an d = true \/ In d [39; 44; 45; 46]%N) d) by (intros d [_ H]; eapply Forall_impl; [|exact H]; intros e He; left; apply an_digit; exact He).
  destruct c as [p|n|p c|q p|key]; [| | |intros Hc; apply Forall_forall; intros d Hd; destruct (hyph_chars q p d Hc Hd) as [E| ->]; [left; unfold an; rewrite E; reflexivity|right; cbn; tauto]|intros Hc; eapply Forall_impl; [|apply key_an; exact Hc]; intros d Hd; left; exact Hd]; cbn [core_ok SEnglish.core_ok ctext]; intros Hc.
  - apply L, Hc.
  - induction Hc as [d Hd|d s n Hd Hs Hn IH]; [auto|]. apply Forall_app. split; [auto|]. constructor; [|exact IH]. right. destruct Hs as [-> | ->]; cbn; tauto.
  - destruct Hc as ([_ Hp] & _ & Hc). destruct (clitic_parts c Hc) as (uu & v & -> & Hu & Hv & _). apply Forall_app. split; [auto|]. apply Forall_app. split; [auto|]. constructor; [right; cbn; tauto|auto].
Qed.
Lemma core_no58 c : core_ok c -> ~ In 58%N (ctext c).
Proof. intros Hc H. pose proof (core_chars c Hc) as F. rewrite Forall_forall in F. destruct (F _ H) as [E|E]; [discriminate E|]. cbn in E. repeat destruct E as [E|E]; try discriminate E; contradiction. Qed.
Section Mark.
  Context (k : char) (ru : rule) (Hk1 : alnumb k = false) (Hk2 : wch k = true) (Hk3 : (k =? 95)%N = false) (Hk4 : an k = false) (HQ : quiet (r_ic ru) (r_pat ru) (nots k) = true) (HR : r_rep ru = [TLit [32; k; 32]%N]).
  Notation srr := (sr A (r_ic ru) (r_pat ru) (r_rep ru)).
  Context (HD : forall d1 d2 s b a, In d1 DG -> In d2 DG -> sep s -> match_at A (r_ic ru) (r_pat ru) (d1 :: b) (s :: d2 :: a) = None).
  Lemma HQc : quiet (r_ic ru) (r_pat ru) alnumb = true.
  Proof.
    unfold quiet in *. apply andb_true_iff in HQ. destruct HQ as [H1 H2]. apply andb_true_iff. split; [exact H1|]. rewrite forallb_forall in *. intros c Hc. specialize (H2 c Hc). cbn beta in *. unfold nots in H2. destruct (c =? k)%N eqn:E; [|cbn in H2; rewrite H2; apply implb_true_r].
    apply N.eqb_eq in E. subst c. rewrite Hk1. reflexivity.
  Qed.
  Lemma HNm : nullable (r_pat ru) = false.
  Proof. exact (HN _ _ HQc). Qed.
  Lemma mark_skip p b a : Forall (fun c => wch c = true) p -> ~ In k p -> srr b (p ++ a) = p ++ srr (rev p ++ b) a.
  Proof.
    intros H. revert b. induction H as [|c p H1 Hp IH]; intros b Hn; [reflexivity|]. cbn [app]. rewrite sr_skip; [|exact HNm|apply (quiet_none _ _ (nots k)); [exact HQ|apply wch_lt; exact H1|unfold nots; apply negb_true_iff, N.eqb_neq; intros ->; apply Hn; left; reflexivity]]. rewrite IH by (intros F; apply Hn; right; exact F). cbn [rev]. rewrite <- app_assoc. reflexivity.
  Qed.
  (** [fires c]: the rule fires at a mark after the word [c] *)
  Context (fires : core -> bool) (alone : bool).
  Context (Hat : forall c b rest, core_ok c -> sfirst rest -> if fires c then exists st, match_at A (r_ic ru) (r_pat ru) (rev (ctext c) ++ b) (k :: rest) = Some st /\ bef st = k :: rev (ctext c) ++ b /\ aft st = rest
    else match_at A (r_ic ru) (r_pat ru) (rev (ctext c) ++ b) (k :: rest) = None).
  Context (Hal : alone = true -> forall b rest, sfirst b -> sfirst rest -> match_at A (r_ic ru) (r_pat ru) b (k :: rest) = None \/ exists st, match_at A (r_ic ru) (r_pat ru) b (k :: rest) = Some st /\ bef st = k :: b /\ aft st = rest).
  Definition okk (x : mw) : Prop := base x /\ match x with MC _ _ => True | MSym s => ~ In k s \/ (alone = true /\ s = [k]) end.
  Definition Fmark (x : mw) : list mw := match x with MC c (TMark m) => if (m =? k)%N && fires c then [MC c TNone; MSym [k]] else [x] | _ => [x] end.
  Lemma rule_mark a xs : forallb (fun c => negb (firstb A (r_ic ru) (r_pat ru) c)) SP = true -> words a = map mstr xs -> Forall okk xs -> words (apply_rule A a ru) = map mstr (flat_map Fmark xs).
  Proof.
    intros HS. apply (step_any ru okk HNm HS Fmark). intros b x rest [Hx Hm] Hb Hr.
    destruct (base_word _ Hx) as [B1 B2]. pose proof (split_ws_word (u_space A) _ B1 B2) as W.
    assert (KW : split_ws (u_space A) [32; k; 32]%N = [[k]]) by (rewrite split_ws_cons_space by reflexivity; apply (split_ws_word_space (u_space A) [k] 32%N []); [discriminate|constructor; [apply wch_space; exact Hk2|constructor]|reflexivity]).
    destruct x as [c t|s].
    - pose proof (base_wch _ Hx) as BW. destruct Hx as (Hc & Ht & _). cbn [mstr] in *. rewrite <- app_assoc. rewrite (core_skip _ _ (r_rep ru) HQc HD c Hc). rewrite rev_app_distr, <- app_assoc. apply Forall_app in BW. destruct BW as [_ BW].
      assert (SK : ~ In k (tstr t) -> exists fx, ctext c ++ srr (rev (ctext c) ++ b) (tstr t ++ rest) = fx ++ srr (rev (tstr t) ++ rev (ctext c) ++ b) rest /\ words fx = map mstr [MC c t]).
      { intros Hn. exists (ctext c ++ tstr t). split; [|exact W]. rewrite mark_skip by assumption. rewrite <- app_assoc. reflexivity. }
      destruct t as [|m0|]; cbn [Fmark].
      + apply SK. intros [].
      + destruct (m0 =? k)%N eqn:Em; cbn [andb]; [|apply SK; intros [F|[]]; apply N.eqb_neq in Em; congruence]. apply N.eqb_eq in Em. subst m0. cbn [tstr app rev].
        specialize (Hat c b rest Hc Hr). destruct (fires c).
        * destruct Hat as (st & E & Eb & Ea). rewrite (sr_match _ _ _ _ HNm _ _ _ E). rewrite Eb, Ea, HR. exists (ctext c ++ [32; k; 32]%N). split; [rewrite <- app_assoc; reflexivity|].
          etransitivity; [apply (words_core c [32; k; 32]%N Hc); intros d y Ey; injection Ey as <- _; reflexivity|]. cbn [map mstr tstr]. rewrite app_nil_r. exact (f_equal (cons (ctext c)) KW).
        * rewrite sr_skip; [|exact HNm|exact Hat]. exists (ctext c ++ [k]). split; [rewrite <- app_assoc; reflexivity|exact W].
      + apply SK. unfold nsd. cbn [tstr lit]. intros F. cbn in F. repeat destruct F as [F|F]; try contradiction; subst; try discriminate.
    - cbn [mstr Fmark] in *. destruct Hm as [Hm|[Ea ->]].
      + exists s. split; [|exact W]. apply mark_skip; [exact (base_wch (MSym s) Hx)|exact Hm].
      + destruct (Hal Ea b rest Hb Hr) as [E|(st & E & Eb & Ea2)]; cbn [app rev].
        * exists [k]. rewrite sr_skip; [|exact HNm|exact E]. split; [reflexivity|exact W].
        * exists [32; k; 32]%N. rewrite (sr_match _ _ _ _ HNm _ _ _ E). rewrite Eb, Ea2, HR. split; [reflexivity|exact KW].
  Qed.
End Mark.
Definition SB : list str := [[33]; [63]; [59]; [46]]%N.
(** the shapes before and after such a rule *)
Lemma okm_okk k alone ms ss x : (forall s, In s ss -> ~ In k s \/ (alone = true /\ s = [k])) -> okm ms ss x -> okk k alone x.
Proof. intros H [Hx Hm]. split; [exact Hx|]. destruct x as [c t|s]; [exact I|]. apply H. exact Hm. Qed.
Lemma mark_ok k fires ms ms' ss xs : In [k] SY -> (forall m c, In m ms -> In m ms' \/ ((m =? k)%N && fires c = true)) -> Forall (okm ms ss) xs -> Forall (okm ms' ([k] :: ss)) (flat_map (Fmark k fires) xs).
Proof.
  intros HK HM. induction 1 as [|x xs [Hx Hm] _ IH]; [constructor|]. cbn [flat_map]. apply Forall_app. split; [|exact IH]. destruct x as [c t|s].
  - destruct t as [|m0|]; try (constructor; [split; [exact Hx|exact I]|constructor]). cbn [Fmark]. destruct (_ && _) eqn:E.
    + destruct Hx as (Hc & _). constructor; [|constructor; [|constructor]].
      * split; [|exact I]. split; [exact Hc|]. split; [exact I|]. destruct c; exact I.
      * split; [exact HK|left; reflexivity].
    + constructor; [|constructor]. split; [exact Hx|]. destruct Hm as [Hm|Hm]; [|right; exact Hm]. left. destruct (HM m0 c Hm) as [F|F]; [exact F|congruence].
  - constructor; [|constructor]. split; [exact Hx|]. right. exact Hm.
Qed.
(** *** colons *)
Ltac marks := vm_compute; repeat (first [reflexivity|tauto]).
Lemma D_colon1 : forall d1 d2 s b a, In d1 DG -> In d2 DG -> sep s -> match_at A (r_ic (sg 11)) (r_pat (sg 11)) (d1 :: b) (s :: d2 :: a) = None.
Proof. digits2. Qed.
Lemma D_colon2 : forall d1 d2 s b a, In d1 DG -> In d2 DG -> sep s -> match_at A (r_ic (sg 12)) (r_pat (sg 12)) (d1 :: b) (s :: d2 :: a) = None.
Proof. digits2. Qed.
Lemma at_colon1 b rest : sfirst rest -> exists st, match_at A (r_ic (sg 11)) (r_pat (sg 11)) b (58%N :: rest) = Some st /\ bef st = 58%N :: b /\ aft st = rest.
Proof.
  intros Hr. exists {| bef := 58%N :: b; aft := rest; caps := [] |}. split; [|split; reflexivity]. destruct rest as [|c r]; [reflexivity|]. specialize (Hr c r eq_refl). apply space_in in Hr. each Hr.
Qed.
Lemma at_colon2 c b rest : core_ok c -> match_at A (r_ic (sg 12)) (r_pat (sg 12)) (rev (ctext c) ++ b) (58%N :: rest) = None.
Proof.
  intros Hc. destruct (core_last_rev c Hc) as (d & r & -> & Hd). assert (I0 : In d AN) by (apply an_in; destruct (is_num c); [apply an_digit; exact Hd|]; unfold nondig in Hd; unfold an; destruct (a_letter d); [reflexivity|]; cbn [orb] in *; rewrite Hd; apply orb_true_r). each I0.
Qed.
Lemma at_colon3 b rest : match_at A (r_ic (sg 12)) (r_pat (sg 12)) b (58%N :: rest) = None \/ exists st, match_at A (r_ic (sg 12)) (r_pat (sg 12)) b (58%N :: rest) = Some st /\ bef st = 58%N :: b /\ aft st = rest.
Proof.
  destruct (match_at A (r_ic (sg 12)) (r_pat (sg 12)) b (58%N :: rest)) as [st|] eqn:E; [right|left; reflexivity]. exists st. split; [reflexivity|].
  destruct (mrel_lang _ _ _ _ _ (match_at_some _ _ _ _ _ _ E)) as (w0 & Aw & Bw & L). cbn [aft bef] in *. cbn [sg nth re_segment_off r_pat r_ic mk seqs lang] in L. destruct L as (e0 & w1 & -> & E0 & (q & -> & _)). assert (e0 = []) by (unfold after_sp in E0; cbn in E0; exact E0). subst e0.
  cbn [app] in *. injection Aw as <- Aw. split; [exact Bw|symmetry; exact Aw].
Qed.
Notation Fcolon := (Fmark 58%N (fun _ => true)).
Lemma rule_colon1 a xs : words a = map mstr xs -> Forall ok3 xs -> words (apply_rule A a (sg 11)) = map mstr (flat_map Fcolon xs).
Proof.
  intros Ha HO. apply (rule_mark 58%N (sg 11) eq_refl eq_refl eq_refl eq_refl ltac:(vm_compute; reflexivity) eq_refl D_colon1 (fun _ => true) false); [intros c b rest _ Hr; apply at_colon1; exact Hr|discriminate|vm_compute; reflexivity|exact Ha|].
  eapply Forall_impl; [|exact HO]. intros x. apply (okm_okk 58%N false [44; 58]%N SB). intros s Hs. left. cbn in Hs. repeat destruct Hs as [<-|Hs]; try contradiction; intros [F|[]]; discriminate F.
Qed.
Definition ok4 (x : mw) : Prop := okm [44]%N ([58]%N :: SB) x.
Lemma colon1_ok xs : Forall ok3 xs -> Forall ok4 (flat_map Fcolon xs).
Proof. apply (mark_ok 58%N (fun _ => true) [44; 58]%N [44]%N SB); [vm_compute; tauto|]. intros m c [<-|[<-|[]]]; cbn; auto. Qed.
Lemma flat_none k xs : flat_map (Fmark k (fun _ => false)) xs = xs.
Proof. rewrite <- (flat_id xs) at 2. apply flat_map_ext. intros [c [|m|]|s]; cbn [Fmark]; try reflexivity. rewrite andb_false_r. reflexivity. Qed.
Lemma rule_colon2 a xs : words a = map mstr xs -> Forall ok4 xs -> words (apply_rule A a (sg 12)) = map mstr xs.
Proof.
  intros Ha HO. rewrite <- (flat_none 58%N xs). apply (rule_mark 58%N (sg 12) eq_refl eq_refl eq_refl eq_refl ltac:(vm_compute; reflexivity) eq_refl D_colon2 (fun _ => false) true); [intros c b rest Hc _; apply at_colon2; exact Hc|intros _ b rest _ _; apply at_colon3|vm_compute; reflexivity|exact Ha|].
  eapply Forall_impl; [|exact HO]. intros x. apply (okm_okk 58%N true [44]%N ([58]%N :: SB)). intros s Hs. destruct Hs as [<-|Hs]; [right; auto|]. left. cbn in Hs. repeat destruct Hs as [<-|Hs]; try contradiction; intros [F|[]]; discriminate F.
Qed.
(** the rules that need a word right before a colon *)
Fixpoint nospb (ic : bool) (r : re) : bool :=
  match r with
  | Chr cs => forallb (fun c => negb (cset_match A ic cs c)) SP
  | Seq a b | Alt a b => nospb ic a && nospb ic b
  | Star _ a | Grp _ a => nospb ic a
  | _ => true
  end.
Lemma nosp_lang ic r : forall x, nospb ic r = true -> lang A ic r x -> Forall (fun c => u_space A c = false) x.
Proof.
  induction r as [|cs|r1 IH1 r2 IH2|r1 IH1 r2 IH2|g0 r IH|n r IH|pos r IH|pos l|pos| |]; cbn [lang nospb]; intros x HB H; try (subst x; constructor); try (apply IH; assumption).
  - destruct H as (d & -> & H). constructor; [|constructor]. destruct (u_space A d) eqn:E; [|reflexivity]. apply space_in in E. rewrite forallb_forall in HB. specialize (HB d E). rewrite H in HB. discriminate.
  - apply andb_true_iff in HB. destruct HB as [B1 B2]. destruct H as (y & z & -> & H1 & H2). apply Forall_app. split; [apply IH1; assumption|apply IH2; assumption].
  - apply andb_true_iff in HB. destruct HB as [B1 B2]. destruct H as [H|H]; [apply IH1; assumption|apply IH2; assumption].
  - destruct H as (l & -> & H). induction H as [|y l Hy Hl IHl]; cbn [concat]; [constructor|]. apply Forall_app. split; [apply IH; assumption|exact IHl].
Qed.
Lemma prefix_word (z rest w0 y : str) : Forall (fun c => u_space A c = false) w0 -> sfirst rest -> z ++ rest = w0 ++ y -> exists z', z = w0 ++ z'.
Proof.
  intros H. revert z. induction H as [|c w0 Hc Hw IH]; intros z Hr E; [exists z; reflexivity|]. destruct z as [|d z]; cbn [app] in E.
  - specialize (Hr c _ E). congruence.
  - injection E as -> E. destruct (IH z Hr E) as (z' & ->). exists z'. reflexivity.
Qed.
Lemma has58 x : ok4 x -> In 58%N (mstr x) -> x = MSym [58%N].
Proof.
  intros [Hx Hm] H. destruct x as [c t|s].
  - exfalso. cbn [mstr] in H. apply in_app_iff in H. destruct Hx as (Hc & _). destruct H as [H|H]; [exact (core_no58 c Hc H)|]. destruct t as [|m0|]; [contradiction| |cbn in H; repeat destruct H as [H|H]; try discriminate H; contradiction]. destruct H as [->|[]]. destruct Hm as [[Hm|[]]|[Hm _]]; discriminate Hm.
  - cbn [mstr] in H. destruct Hm as [<-|Hm]; [reflexivity|]. exfalso. cbn in Hm. repeat destruct Hm as [<-|Hm]; try contradiction; destruct H as [H|[]]; discriminate H.
Qed.
Lemma rule_colon3 ru a xs : nospb (r_ic ru) (r_pat ru) = true -> mustb [58%N] (r_pat ru) = true -> nullable (r_pat ru) = false -> firstb A (r_ic ru) (r_pat ru) 58%N = false -> forallb (fun c => negb (firstb A (r_ic ru) (r_pat ru) c)) SP = true ->
  words a = map mstr xs -> Forall ok4 xs -> words (apply_rule A a ru) = map mstr xs.
Proof.
  intros H1 H2 H3 H4 H5. apply (step_id ru ok4 (fun x Hx => proj1 Hx) H3 H5). intros b x rest u z Hx Hb Hr E Hz. destruct (match_at A (r_ic ru) (r_pat ru) (rev u ++ b) (z ++ rest)) as [st|] eqn:EM; [|reflexivity]. exfalso.
  destruct (mrel_lang _ _ _ _ _ (match_at_some _ _ _ _ _ _ EM)) as (w0 & Aw & _ & L). cbn [aft] in Aw. destruct (prefix_word z rest w0 (aft st) (nosp_lang _ _ _ H1 L) Hr Aw) as (z' & ->).
  destruct (must_lang A ascii_udb_ok (r_ic ru) [58%N] eq_refl (r_pat ru) w0 H2 L) as (d & Hd & [<-|[]]). assert (x = MSym [58%N]) by (apply has58; [exact Hx|rewrite E, !in_app_iff; auto]). subst x. cbn [mstr] in E.
  destruct w0 as [|e w0]; [contradiction|]. destruct u as [|e2 u]; [|destruct u; discriminate E]. injection E as <- _. apply first_lang in L. congruence.
Qed.
(** *** commas *)
Definition fires1 (c : core) : bool := negb (is_num c).
Lemma D_comma1 : forall d1 d2 s b a, In d1 DG -> In d2 DG -> sep s -> match_at A (r_ic (sg 18)) (r_pat (sg 18)) (d1 :: b) (s :: d2 :: a) = None.
Proof. digits2. Qed.
Lemma D_comma2 : forall d1 d2 s b a, In d1 DG -> In d2 DG -> sep s -> match_at A (r_ic (sg 19)) (r_pat (sg 19)) (d1 :: b) (s :: d2 :: a) = None.
Proof. digits2. Qed.
Lemma at_comma1 c b rest : core_ok c -> sfirst rest -> if fires1 c then exists st, match_at A (r_ic (sg 18)) (r_pat (sg 18)) (rev (ctext c) ++ b) (44%N :: rest) = Some st /\ bef st = 44%N :: rev (ctext c) ++ b /\ aft st = rest
    else match_at A (r_ic (sg 18)) (r_pat (sg 18)) (rev (ctext c) ++ b) (44%N :: rest) = None.
Proof.
  intros Hc _. destruct (core_last_rev c Hc) as (d & r & -> & Hd). unfold fires1. destruct (is_num c); cbn [negb].
  - apply digit_in in Hd. each Hd.
  - assert (I0 : In d (filter nondig AN)) by (apply filter_In; split; [apply an_in; unfold nondig in Hd; unfold an; destruct (a_letter d); [reflexivity|]; cbn [orb] in *; rewrite Hd; apply orb_true_r|exact Hd]). exists {| bef := 44%N :: (d :: r) ++ b; aft := rest; caps := [] |}. split; [|split; reflexivity]. each I0.
Qed.
Lemma at_comma2 b rest : sfirst rest -> exists st, match_at A (r_ic (sg 19)) (r_pat (sg 19)) b (44%N :: rest) = Some st /\ bef st = 44%N :: b /\ aft st = rest.
Proof.
  intros Hr. exists {| bef := 44%N :: b; aft := rest; caps := [] |}. split; [|split; reflexivity]. revert Hr. intros Hr. destruct rest as [|c r]; [reflexivity|]. specialize (Hr c r eq_refl). apply space_in in Hr. each Hr.
Qed.
Notation Fcomma1 := (Fmark 44%N fires1).
Notation Fcomma2 := (Fmark 44%N (fun _ => true)).
Lemma rule_comma1 a xs : words a = map mstr xs -> Forall ok4 xs -> words (apply_rule A a (sg 18)) = map mstr (flat_map Fcomma1 xs).
Proof.
  intros Ha HO. apply (rule_mark 44%N (sg 18) eq_refl eq_refl eq_refl eq_refl ltac:(vm_compute; reflexivity) eq_refl D_comma1 fires1 false at_comma1); [discriminate|vm_compute; reflexivity|exact Ha|].
  eapply Forall_impl; [|exact HO]. intros x. apply (okm_okk 44%N false [44]%N ([58]%N :: SB)). intros s Hs. left. cbn in Hs. repeat destruct Hs as [<-|Hs]; try contradiction; intros [F|[]]; discriminate F.
Qed.
Definition ok4c (x : mw) : Prop := okm [44]%N ([44]%N :: [58]%N :: SB) x.
Lemma comma1_ok xs : Forall ok4 xs -> Forall ok4c (flat_map Fcomma1 xs).
Proof. apply (mark_ok 44%N fires1 [44]%N [44]%N ([58]%N :: SB)); [vm_compute; tauto|]. intros m c H. auto. Qed.
Lemma rule_comma2 a xs : words a = map mstr xs -> Forall ok4c xs -> words (apply_rule A a (sg 19)) = map mstr (flat_map Fcomma2 xs).
Proof.
  intros Ha HO. apply (rule_mark 44%N (sg 19) eq_refl eq_refl eq_refl eq_refl ltac:(vm_compute; reflexivity) eq_refl D_comma2 (fun _ => true) true); [| |vm_compute; reflexivity|exact Ha|].
  - intros c b rest _ Hr. apply at_comma2. exact Hr.
  - intros _ b rest _ Hr. right. apply at_comma2. exact Hr.
  - eapply Forall_impl; [|exact HO]. intros x. apply (okm_okk 44%N true [44]%N ([44]%N :: [58]%N :: SB)). intros s Hs. destruct Hs as [<-|Hs]; [right; auto|]. left. cbn in Hs. repeat destruct Hs as [<-|Hs]; try contradiction; intros [F|[]]; discriminate F.
Qed.
Definition ok5 (x : mw) : Prop := base x /\ match x with MC c (TMark m) => m = 46%N /\ initial c = true | MC _ _ => True | MSym s => In s [[44]; [58]; [33]; [63]; [59]; [46]]%N end.
Lemma comma2_ok xs : Forall ok4c xs -> Forall ok5 (flat_map Fcomma2 xs).
Proof.
  intros H. apply (mark_ok 44%N (fun _ => true) [44]%N [] ([44]%N :: [58]%N :: SB)) in H; [|vm_compute; tauto|intros m c [<-|[]]; auto]. eapply Forall_impl; [|exact H]. intros x [Hx Hm]. split; [exact Hx|]. destruct x as [c [|m|]|s]; auto.
  - destruct Hm as [[]|Hm]. exact Hm.
  - destruct Hm as [Hm|Hm]; [left; exact Hm|exact Hm].
Qed.
