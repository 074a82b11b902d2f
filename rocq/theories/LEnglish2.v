(** Proofs about the tokenizer on ordinary English text: the rules that keep full stops. *)
From Coq Require Import Ascii String.
From Coq Require Import List NArith ZArith Arith Bool Lia.
From Verif Require Import PyBase Regex MTokenizer STok SEnglish LBase LRegex LSub LTok LTokWords LRun LEnglish.
Import ListNotations.
Local Open Scope nat_scope.

Definition an (c : char) : bool := a_letter c || a_digit c || (c =? 95)%N.
Definition AN : list char := Eval vm_compute in filter an ASCII.
Lemma an_lt c : an c = true -> (c < 128)%N.
Proof. unfold an. rewrite !orb_true_iff. intros [[H|H]|H]; [apply letter_lt; exact H|apply digit_lt; exact H|apply N.eqb_eq in H; subst; reflexivity]. Qed.
Lemma an_digit c : a_digit c = true -> an c = true.
Proof. intros H. unfold an. rewrite H, orb_true_r. reflexivity. Qed.
Lemma an_in c : an c = true -> In c AN.
Proof. intros H. apply (class_in an); [vm_compute; reflexivity|apply an_lt; exact H|exact H]. Qed.
Ltac each H := cbn in H; repeat (destruct H as [<-|H]; [reflexivity|]); contradiction H.

Lemma core_head c : core_ok c -> exists d r, ctext c = d :: r /\ an d = true.
Proof.
  unfold an. destruct c as [p|n|p c|q p|key]; cbn [core_ok SEnglish.core_ok ctext]; intros H.
  - destruct H as [Hn H]. destruct p as [|d p]; [congruence|]. inversion H; subst. exists d, p. split; [reflexivity|]. rewrite H2. reflexivity.
  - destruct (number_head n H) as (d & n' & -> & Hd). exists d, n'. split; [reflexivity|]. exact (an_digit d Hd).
  - destruct H as ([Hn H] & _). destruct p as [|d p]; [congruence|]. inversion H; subst. exists d, (p ++ c). split; [reflexivity|]. rewrite H2. reflexivity.
  - destruct H as (Hq & H & _). destruct q as [|[|d w0] q]; [congruence|inversion H as [|? ? [[F _] _] _]; congruence|]. inversion H as [|? ? [[_ H1] _] _]; subst. inversion H1; subst. eexists d, _. split; [reflexivity|]. rewrite H3. reflexivity.
  - destruct H as [n ->]. eexists 95%N, _. split; reflexivity.
Qed.

Definition nextc (xs : list mw) : option char := match xs with [] | MC (Web _) _ :: _ => None | x :: _ => hd_error (mstr x) end.
Definition tl_ok (t : tl) : Prop := match t with TMark m => In m (lit ",!?;:.") | _ => True end.
Definition okA (x : mw) (xs : list mw) : Prop :=
  match x with
  | MSym _ => False
  | MC c t => core_ok c /\ tl_ok t /\ (t = TMark 46%N -> match xs with MC (Num _) (TMark m) :: _ => m <> 46%N | MC (Num _) TKept :: _ => False | _ => True end)
  end.
Notation tail := (tail_of mstr).
Notation okn := (okn okA).
Lemma tail_cases xs : okn xs -> (xs = [] /\ tail xs = []) \/ exists d rest, tail xs = 32%N :: d :: rest /\ an d = true /\ (nextc xs = Some d \/ nextc xs = None /\ d = 95%N).
Proof.
  intros H. destruct H as [|x xs Hx _]; [left; auto|]. right. destruct x as [c t|s]; [|contradiction]. destruct Hx as (Hc & _). destruct (core_head c Hc) as (d & r & E & Hd).
  unfold tail_of. rewrite join_tail. exists d. eexists. cbn [mstr]. rewrite E. cbn [app]. split; [reflexivity|]. split; [exact Hd|]. destruct c; cbn [nextc mstr]; try (left; rewrite E; reflexivity). right. destruct Hc as [n ->]. injection E as <- _. auto.
Qed.

(** *** rules that replace a full stop *)
Section DotRule.
  Context (ic : bool) (r : re) (keep : list mw -> bool).
  Context (HQ : quiet ic r (fun c => negb (c =? 46)%N) = true).
  Context (HD : forall d1 d2 s b a, In d1 DG -> In d2 DG -> sep s -> match_at A ic r (d1 :: b) (s :: d2 :: a) = None).
  Context (Hat : forall b c xs, okA (MC c (TMark 46%N)) xs -> okn xs ->
    if keep xs then exists st, match_at A ic r b (46%N :: tail xs) = Some st /\ bef st = 46%N :: b /\ aft st = tail xs else match_at A ic r b (46%N :: tail xs) = None).
  Definition fdot (x : mw) (xs : list mw) : mw := match x with MC c (TMark m) => if (m =? 46)%N && keep xs then MC c TKept else x | _ => x end.
  Lemma HQa : quiet ic r alnumb = true.
  Proof.
    unfold quiet in *. apply andb_true_iff in HQ. destruct HQ as [H1 H2]. apply andb_true_iff. split; [exact H1|]. rewrite forallb_forall in *. intros c Hc. specialize (H2 c Hc). cbn beta in *. destruct (c =? 46)%N eqn:E; [|cbn in H2; rewrite H2; apply implb_true_r].
    apply N.eqb_eq in E. subst c. reflexivity.
  Qed.
  Lemma quiet_skip c b a : (c < 128)%N -> c <> 46%N -> sr A ic r [TLit nsd] b (c :: a) = c :: sr A ic r [TLit nsd] (c :: b) a.
  Proof. intros Hc Hn. apply sr_skip; [exact (HN ic r HQa)|]. apply (quiet_none _ _ (fun c => negb (c =? 46)%N)); [exact HQ|exact Hc|]. apply negb_true_iff, N.eqb_neq. exact Hn. Qed.
  Lemma dot_rule xs : okn xs -> sub A ic r [TLit nsd] (join [32%N] (map mstr xs)) = join [32%N] (map mstr (mapn fdot xs)).
  Proof.
    intros H. apply (sub_next A ic r [TLit nsd] (HN ic r HQa) mstr fdot okA); [| |exact H].
    - intros b x ys _. apply (quiet_none _ _ (fun c => negb (c =? 46)%N)); [exact HQ|reflexivity|reflexivity].
    - intros b x ys Hx Ho _. destruct x as [c t|s]; [|contradiction]. pose proof Hx as (Hc & Ht & Hn). cbn [mstr]. rewrite <- app_assoc. rewrite (core_skip ic r [TLit nsd] HQa HD c Hc). rewrite rev_app_distr, <- app_assoc.
      destruct t as [|m0|]; cbn [tstr fdot app rev mstr].
      + rewrite app_nil_r. reflexivity.
      + cbn in Ht. destruct (N.eq_dec m0 46) as [->|Hm].
        * cbn [N.eqb andb Pos.eqb]. specialize (Hat (rev (ctext c) ++ b) c ys Hx Ho). destruct (keep ys).
          -- destruct Hat as (st & E & Eb & Ea). rewrite (sr_match _ _ _ _ (HN ic r HQa) _ _ _ E). rewrite Eb, Ea. cbn [mstr tstr]. rewrite <- app_assoc. reflexivity.
          -- rewrite sr_skip; [|exact (HN ic r HQa)|exact Hat]. cbn [mstr tstr]. rewrite <- app_assoc. reflexivity.
        * replace (m0 =? 46)%N with false by (symmetry; apply N.eqb_neq; exact Hm). cbn [andb mstr tstr]. rewrite quiet_skip; [rewrite <- app_assoc; reflexivity| |exact Hm]. repeat destruct Ht as [<-|Ht]; try reflexivity. contradiction.
      + unfold nsd. cbn [lit app rev]. rewrite !quiet_skip by (try reflexivity; discriminate). rewrite <- app_assoc. reflexivity.
  Qed.
  Lemma dot_ok xs : okn xs -> okn (mapn fdot xs).
  Proof.
    induction 1 as [|x xs Hx Ho IH]; [constructor|]. cbn [mapn]. constructor; [|exact IH]. destruct x as [c t|s]; [|contradiction]. destruct Hx as (Hc & Ht & Hn).
    assert (G : okA (MC c t) (mapn fdot xs)).
    { split; [exact Hc|]. split; [exact Ht|]. intros E. specialize (Hn E). destruct xs as [|[[p|n|p c2|q p|key] [|m0|]|s] xs]; cbn [mapn fdot] in *; try exact I; try contradiction; try (destruct (_ && _); exact I).
      destruct (m0 =? 46)%N eqn:Em; [apply N.eqb_eq in Em; contradiction|]. cbn [andb]. exact Hn. }
    unfold fdot at 1. destruct t as [|m0|]; try exact G. destruct (_ && _); [|exact G]. split; [exact Hc|]. split; [exact I|]. discriminate.
  Qed.
End DotRule.

Definition keep1 (xs : list mw) : bool := match nextc xs with Some d => lower_case d | None => false end.
Definition keep3 (xs : list mw) : bool := match nextc xs with Some d => a_digit d | None => false end.
Lemma at_dot1 b d rest : In d AN -> match_at A (r_ic (ns 0)) (r_pat (ns 0)) b (46%N :: 32%N :: d :: rest) = if lower_case d then Some {| bef := 46%N :: b; aft := 32%N :: d :: rest; caps := [] |} else None.
Proof. intros H. each H. Qed.
Lemma at_dot2 b d rest : In d AN -> match_at A (r_ic (ns 1)) (r_pat (ns 1)) b (46%N :: 32%N :: d :: rest) = None.
Proof. intros H. each H. Qed.
Lemma at_dot3 b d rest : In d (filter (fun c => negb (a_digit c)) AN) -> match_at A (r_ic (ns 2)) (r_pat (ns 2)) b (46%N :: 32%N :: d :: rest) = None.
Proof. intros H. each H. Qed.
Lemma num_prefix n : number n -> exists d y, digits d /\ n = d ++ y /\ (y = [] \/ exists s y', y = s :: y' /\ sep s).
Proof. intros [d H|d s n' H Hs _]; [exists d, []; rewrite app_nil_r; auto|exists d, (s :: n'); split; [exact H|]; split; [reflexivity|]; right; eauto]. Qed.
Lemma lang_digits d : digits d -> lang A false (plus dig) d.
Proof.
  intros [Hn H]. destruct d as [|c d]; [congruence|]. inversion H as [|? ? H1 H2]; subst. assert (G : forall c, a_digit c = true -> lang A false dig [c]).
  { clear. intros c Hc. exists c. split; [reflexivity|]. apply digit_in in Hc. each Hc. }
  exists [c], d. split; [reflexivity|]. split; [apply G; exact H1|]. clear - H2 G. induction H2 as [|c d Hc Hd IH]; [exists []; split; [reflexivity|constructor]|]. destruct IH as (l & -> & Hl). exists ([c] :: l). split; [reflexivity|]. constructor; [apply G; exact Hc|exact Hl].
Qed.
Lemma word_false_not x : (x = [] \/ exists s y, x = s :: y /\ u_word A s = false) -> match x with [] => False | s :: _ => u_word A s = true end -> False.
Proof. intros [->|(s & y & -> & H)] E; [exact E|congruence]. Qed.
Lemma at_dot3_num b n x : number n -> (x = [] \/ exists s y, x = s :: y /\ u_word A s = false) ->
  exists st, match_at A (r_ic (ns 2)) (r_pat (ns 2)) b (46%N :: 32%N :: n ++ x) = Some st /\ bef st = 46%N :: b /\ aft st = 32%N :: n ++ x.
Proof.
  intros Hn Hx. destruct (num_prefix n Hn) as (d & y & Hd & -> & Hy).
  assert (Hz : y ++ x = [] \/ exists s z, y ++ x = s :: z /\ u_word A s = false).
  { destruct Hy as [->|(s & y' & -> & [-> | ->])]; [exact Hx| |]; right; eexists; eexists; (split; [reflexivity|reflexivity]). }
  rewrite <- app_assoc. set (z := y ++ x) in *. clearbody z. clear Hn Hx Hy y x.
  pose proof Hd as [Hne Hall]. assert (L := lang_digits d Hd).
  destruct (lang_mrel A false (plus dig) eq_refl d L (32%N :: 46%N :: b) z []) as (cp & R).
  assert (RL : mrel A false (seqs [sp; plus dig; Bound true]) {| bef := 46%N :: b; aft := 32%N :: d ++ z; caps := [] |} {| bef := rev d ++ 32%N :: 46%N :: b; aft := z; caps := cp |}).
  { cbn [seqs]. eapply RSeq; [apply RChr; reflexivity|]. eapply RSeq; [exact R|]. apply RBound. cbn [bef aft]. destruct d as [|c d _] using rev_ind; [congruence|]. rewrite rev_app_distr. cbn [rev app].
    apply Forall_app in Hall. destruct Hall as [_ Hall]. inversion Hall as [|? ? Hc _]; subst. unfold at_word_boundary. assert (W : u_word A c = true) by (apply digit_in in Hc; each Hc).
    rewrite W. destruct Hz as [->|(s & z' & -> & Hs)]; [reflexivity|]. rewrite Hs. reflexivity. }
  destruct (m A false (seqs [sp; plus dig; Bound true]) {| bef := 46%N :: b; aft := 32%N :: d ++ z; caps := [] |} (fun st' => Some st')) as [st'|] eqn:E; [|pose proof (m_none _ _ _ _ _ E _ RL); discriminate].
  exists {| bef := 46%N :: b; aft := 32%N :: d ++ z; caps := caps st' |}. split; [|split; reflexivity].
  change (match m A false (seqs [sp; plus dig; Bound true]) {| bef := 46%N :: b; aft := 32%N :: d ++ z; caps := [] |} (fun st' => Some st') with
    Some st' => Some {| bef := 46%N :: b; aft := 32%N :: d ++ z; caps := caps st' |} | None => None end = Some {| bef := 46%N :: b; aft := 32%N :: d ++ z; caps := caps st' |}). rewrite E. reflexivity.
Qed.
Lemma rule_dot1 xs : okn xs -> apply_rule A (join [32%N] (map mstr xs)) (ns 0) = join [32%N] (map mstr (mapn (fdot keep1) xs)).
Proof.
  intros H. apply (dot_rule (r_ic (ns 0)) (r_pat (ns 0)) keep1); [vm_compute; reflexivity|exact D_dot1| |exact H]. intros b c ys _ Ho. unfold keep1. destruct (tail_cases ys Ho) as [[-> ->]|(d & rest & -> & Hd & [-> |[-> ->]])]; [reflexivity| |reflexivity].
  rewrite at_dot1 by (apply an_in; exact Hd). destruct (lower_case d); [|reflexivity]. eexists. split; [reflexivity|]. split; reflexivity.
Qed.
Definition keep0 (xs : list mw) : bool := false.
Lemma keep0_id xs : mapn (fdot keep0) xs = xs.
Proof. induction xs as [|x xs IH]; [reflexivity|]. cbn [mapn]. rewrite IH. f_equal. destruct x as [c [|m0|]|s]; cbn; try reflexivity. rewrite andb_false_r. reflexivity. Qed.
Lemma rule_dot2 xs : okn xs -> apply_rule A (join [32%N] (map mstr xs)) (ns 1) = join [32%N] (map mstr xs).
Proof.
  intros H. rewrite <- (keep0_id xs) at 2. apply (dot_rule (r_ic (ns 1)) (r_pat (ns 1)) keep0); [vm_compute; reflexivity|exact D_dot2| |exact H]. intros b c ys _ Ho. cbn [keep0]. destruct (tail_cases ys Ho) as [[-> ->]|(d & rest & -> & Hd & _)]; [reflexivity|].
  apply at_dot2. apply an_in. exact Hd.
Qed.
Lemma core_digit c d r : core_ok c -> ctext c = d :: r -> a_digit d = true -> exists n, c = Num n.
Proof.
  intros Hc E Hd. assert (N : forall d, a_digit d = true -> a_letter d = true -> False).
  { clear. intros d H1 H2. apply digit_in in H1. cbn in H1. repeat (destruct H1 as [<-|H1]; [discriminate H2|]). exact H1. }
  destruct c as [p|n|p c|q p|key]; [|eauto| | |]; exfalso; cbn [ctext core_ok SEnglish.core_ok] in *.
  - subst p. destruct Hc as [_ Hc]. inversion Hc; subst. eapply N; eauto.
  - destruct Hc as ([Hn Hc] & _). destruct p as [|e p]; [congruence|]. injection E as -> _. inversion Hc; subst. eapply N; eauto.
  - destruct Hc as (Hq & H & _). destruct q as [|[|e w0] q]; [congruence|inversion H as [|? ? [[F _] _] _]; congruence|]. inversion H as [|? ? [[_ H1] _] _]; subst. inversion H1; subst. injection E as -> _. eapply N; eauto.
  - destruct Hc as [n ->]. injection E as <- _. discriminate Hd.
Qed.
Lemma rule_dot3 xs : okn xs -> apply_rule A (join [32%N] (map mstr xs)) (ns 2) = join [32%N] (map mstr (mapn (fdot keep3) xs)).
Proof.
  intros H. apply (dot_rule (r_ic (ns 2)) (r_pat (ns 2)) keep3); [vm_compute; reflexivity|exact D_dot3| |exact H]. intros b c ys Hx Ho. unfold keep3. destruct (tail_cases ys Ho) as [[-> ->]|(d & rest & Et & Hd & [En|[En ->]])]; [reflexivity| |rewrite En, Et; apply at_dot3; cbn; tauto].
  rewrite En. destruct (a_digit d) eqn:Ed.
  - inversion Ho as [|y zs Hy Hz]; subst; [discriminate En|]. destruct y as [c2 t2|s]; [|contradiction]. destruct Hy as (Hc2 & Ht2 & _). unfold tail_of. rewrite join_tail. cbn [mstr]. rewrite <- app_assoc.
    destruct (ctext c2) as [|e r] eqn:Ec; [destruct (core_head c2 Hc2) as (? & ? & E2 & _); congruence|]. assert (He : e = d) by (destruct c2; cbn [nextc mstr] in En; rewrite ?Ec in En; try (injection En as ->; reflexivity); discriminate En). subst e.
    destruct (core_digit c2 d r Hc2 Ec Ed) as [n ->]. cbn [ctext] in Ec. subst n. destruct Hx as (_ & _ & Hx). specialize (Hx eq_refl). cbn [core_ok SEnglish.core_ok] in Hc2. apply at_dot3_num; [exact Hc2|].
    destruct t2 as [|m0|]; [| |contradiction].
    + cbn [tstr app]. destruct (tail_cases zs Hz) as [[_ ->]|(d2 & r2 & -> & _)]; [left; reflexivity|right; eexists; eexists; split; reflexivity].
    + right. exists m0, (tail zs). split; [reflexivity|]. cbn in Ht2. repeat destruct Ht2 as [<-|Ht2]; try reflexivity. contradiction.
  - rewrite Et. apply at_dot3. apply filter_In. split; [apply an_in; exact Hd|]. rewrite Ed. reflexivity.
Qed.
