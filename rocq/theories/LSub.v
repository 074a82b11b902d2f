(** Scanning a text for the successive matches of a pattern: re.sub, re.split and re.finditer. *)
From Coq Require Import Ascii String.
From Coq Require Import List NArith ZArith Arith Bool Lia.
From Verif Require Import PyBase Regex LBase LRegex.
Import ListNotations.
Local Open Scope nat_scope.

(** may the pattern match the empty word? (over-approximated) *)
Fixpoint nullable (r : re) : bool :=
  match r with
  | Chr _ => false
  | Seq a b => nullable a && nullable b
  | Alt a b => nullable a || nullable b
  | Grp _ a => nullable a
  | _ => true
  end.

Section Scan.
  Context (U : udb) (ic : bool).
  Notation match_at := (match_at U ic).
  Lemma nullable_lang r : nullable r = false -> ~ lang U ic r [].
  Proof.
    induction r; cbn; intros E H; try discriminate.
    - destruct H as (c & H & _). discriminate.
    - destruct H as (y & z & H & H1 & H2). symmetry in H. apply app_eq_nil in H. destruct H as [-> ->]. apply andb_false_iff in E. tauto.
    - apply orb_false_iff in E. tauto.
    - tauto.
  Qed.

  (** [scan r b a ps tl]: the matches of [r] from left to right in the text [a] that comes after the (reversed) text [b] *)
  Inductive scan (r : re) : str -> str -> list (str * (str * mst)) -> str -> Prop :=
  | scan_end b a : (forall x y, a = x ++ y -> match_at r (rev x ++ b) y = None) -> scan r b a [] a
  | scan_match b pre w y st ps tl :
      (forall x z, pre = x ++ z -> z <> [] -> match_at r (rev x ++ b) (z ++ w ++ y) = None) ->
      match_at r (rev pre ++ b) (w ++ y) = Some st -> w <> [] -> lang U ic r w -> aft st = y -> bef st = rev w ++ rev pre ++ b ->
      scan r (rev w ++ rev pre ++ b) y ps tl -> scan r b (pre ++ w ++ y) ((pre, (w, st)) :: ps) tl.

  Lemma pieces_fuel_scan r : nullable r = false -> forall fuel b a cur ps tl, length a < fuel ->
    (forall x z, rev cur = x ++ z -> z <> [] -> match_at r (rev x ++ b) (z ++ a) = None) ->
    pieces_fuel U ic fuel r (cur ++ b) a cur = (ps, tl) -> scan r b (rev cur ++ a) ps tl.
  Proof.
    intros HN. induction fuel as [|f IH]; intros b a cur ps tl Hl Hpre E; [lia|]. cbn [pieces_fuel] in E.
    destruct (match_at r (cur ++ b) a) as [st|] eqn:Em.
    - destruct (mrel_lang _ _ _ _ _ (match_at_some _ _ _ _ _ _ Em)) as (w & A & B & Lw). cbn [aft bef] in A, B.
      assert (Hw : w <> []) by (intros ->; exact (nullable_lang r HN Lw)).
      assert (Hlt : length (aft st) < length a) by (rewrite A, app_length; destruct w; [congruence|cbn; lia]).
      replace (length (aft st) <? length a) with true in E by (symmetry; apply Nat.ltb_lt; exact Hlt).
      destruct (pieces_fuel U ic f r (bef st) (aft st) []) as [ps' tl'] eqn:Ep. injection E as <- <-.
      rewrite (matched_eq _ _ w B). rewrite A. apply scan_match; auto.
      + intros x z Ex Hz. rewrite <- A. apply Hpre; assumption.
      + rewrite rev_involutive, <- A. exact Em.
      + rewrite rev_involutive. exact B.
      + rewrite rev_involutive, <- B. apply (IH (bef st) (aft st) [] ps' tl'); [lia| |exact Ep].
        intros x z Ex Hz. cbn in Ex. symmetry in Ex. apply app_eq_nil in Ex. tauto.
    - assert (Hnone : forall c a' x z, a = c :: a' -> rev (c :: cur) = x ++ z -> z <> [] -> match_at r (rev x ++ b) (z ++ a') = None).
      { intros c a' x z -> Ex Hz. cbn [rev] in Ex. destruct (exists_last Hz) as (z' & d & ->). rewrite app_assoc in Ex. apply app_inj_tail in Ex. destruct Ex as [Ex <-].
        rewrite <- app_assoc. cbn [app]. destruct z' as [|d z'].
        - rewrite app_nil_r in Ex. subst x. rewrite rev_involutive. exact Em.
        - apply (Hpre x (d :: z') Ex). discriminate. }
      destruct a as [|c a'].
      + injection E as <- <-. rewrite app_nil_r. apply scan_end. intros x y Ex. destruct y as [|d y].
        * rewrite app_nil_r in Ex. subst x. rewrite rev_involutive. exact Em.
        * specialize (Hpre x (d :: y) Ex ltac:(discriminate)). rewrite app_nil_r in Hpre. exact Hpre.
      + replace (rev cur ++ c :: a') with (rev (c :: cur) ++ a') by (cbn; rewrite <- app_assoc; reflexivity).
        apply (IH b a' (c :: cur) ps tl); [cbn in Hl; lia| |exact E]. intros x z. apply (Hnone c a' x z eq_refl).
  Qed.
  Theorem pieces_scan r s : nullable r = false -> scan r [] s (fst (pieces U ic r s)) (snd (pieces U ic r s)).
  Proof.
    intros HN. destruct (pieces U ic r s) as [ps tl] eqn:E. unfold pieces in E. cbn [fst snd]. apply (pieces_fuel_scan r HN (S (length s)) [] s []); [lia| |exact E].
    intros x z Ex Hz. cbn in Ex. symmetry in Ex. apply app_eq_nil in Ex. tauto.
  Qed.
  Lemma scan_text r b a ps tl : scan r b a ps tl -> a = flat_map (fun p => fst p ++ fst (snd p)) ps ++ tl.
  Proof. induction 1; cbn; [reflexivity|]. rewrite IHscan at 1. rewrite <- !app_assoc. reflexivity. Qed.

  (** the result of re.sub *)
  Definition subst_of (t : template) (ps : list (str * (str * mst))) (tl : str) : str :=
    flat_map (fun p => fst p ++ expand t (fst (snd p)) (snd (snd p))) ps ++ tl.
  Lemma sub_scan r t s : nullable r = false -> exists ps tl, scan r [] s ps tl /\ sub U ic r t s = subst_of t ps tl.
  Proof.
    intros HN. pose proof (pieces_scan r s HN) as H. unfold sub. destruct (pieces U ic r s) as [ps tl]. exists ps, tl. split; [exact H|reflexivity].
  Qed.
  Lemma split_scan r s : nullable r = false -> exists ps tl, scan r [] s ps tl /\ re_split U ic r s = map fst ps ++ [tl].
  Proof.
    intros HN. pose proof (pieces_scan r s HN) as H. unfold re_split. destruct (pieces U ic r s) as [ps tl]. exists ps, tl. split; [exact H|reflexivity].
  Qed.
  (** no match: nothing changes *)
  Lemma sub_none r t s : nullable r = false -> (forall x y, s = x ++ y -> match_at r (rev x) y = None) -> sub U ic r t s = s.
  Proof.
    intros HN H. destruct (sub_scan r t s HN) as (ps & tl & Hs & ->). inversion Hs as [b a _|b pre w y st ps' tl' Hp Hm]; subst; [reflexivity|].
    exfalso. specialize (H pre _ eq_refl). rewrite app_nil_r in Hm. congruence.
  Qed.

  (** ** captured groups are parts of the text *)
  Definition caps_in (Q : char -> Prop) (st : mst) : Prop := Forall Q (aft st) /\ Forall (fun c => Forall Q (snd c)) (caps st).
  Lemma mrel_caps Q r : forall st st', mrel U ic r st st' -> caps_in Q st -> caps_in Q st'.
  Proof.
    assert (A : forall r st st', mrel U ic r st st' -> Forall Q (aft st) -> Forall Q (aft st')).
    { intros r0 st st' H HQ. destruct (mrel_text _ _ _ _ _ H) as (x & E & _). rewrite E in HQ. apply Forall_app in HQ. tauto. }
    assert (ST : forall g0 r0, (forall st st', mrel U ic r0 st st' -> caps_in Q st -> caps_in Q st') -> forall st st', mrel U ic (Star g0 r0) st st' -> caps_in Q st -> caps_in Q st').
    { intros g0 r0 IH st st' H. remember (Star g0 r0) as s eqn:Es. induction H; try discriminate; [auto|]. injection Es as -> ->. intros HC. apply IHmrel2; [reflexivity|]. eapply IH; eauto. }
    induction r as [|cs|r1 IH1 r2 IH2|r1 IH1 r2 IH2|g0 r IH|n r IH|pos r IH|pos l|pos| |]; intros st st' H HC;
      [| | | |eapply ST; eauto| | | | | |]; inversion H; subst; auto; eauto.
    - destruct HC as [C1 C2]. cbn in C1. inversion C1; subst. split; assumption.
    - match goal with Hr : mrel U ic r st ?s1 |- _ => pose proof (IH _ _ Hr HC) as [C1 C2]; destruct (mrel_text _ _ _ _ _ Hr) as (x & E1 & E2) end. split; [exact C1|]. cbn [caps]. constructor; [|exact C2].
      cbn [snd]. rewrite (consumed_eq _ _ _ E2). destruct HC as [HC _]. rewrite E1 in HC. apply Forall_app in HC. tauto.
    - match goal with Hr : m U ic r st _ = Some _ |- _ => apply m_some in Hr; destruct Hr as (st2 & Hm & E) end. injection E as ->. destruct HC as [C1 C2]. split; [exact C1|]. apply (IH _ _ Hm (conj C1 C2)).
  Qed.
  Lemma expand_in Q t whole st : Forall (fun i => match i with TLit s => Forall Q s | _ => True end) t -> Forall Q whole ->
    Forall (fun c => Forall Q (snd c)) (caps st) -> Forall Q (expand t whole st).
  Proof.
    intros Ht Hw Hc. unfold expand. induction Ht as [|i t Hi Ht IH]; cbn; [constructor|]. apply Forall_app. split; [|exact IH]. destruct i as [s|[|n]]; [exact Hi|exact Hw|].
    unfold Regex.group. clear - Hc. induction Hc as [|[k v] l Hv Hc IH]; cbn [dget]; [constructor|]. destruct (Nat.eqb (S n) k) eqn:E; [rewrite ?E; exact Hv|]. rewrite ?E. exact IH.
  Qed.
  Lemma scan_in Q r b a ps tl : scan r b a ps tl -> Forall Q a ->
    Forall (fun p => Forall Q (fst p) /\ Forall Q (fst (snd p)) /\ Forall (fun c => Forall Q (snd c)) (caps (snd (snd p)))) ps /\ Forall Q tl.
  Proof.
    induction 1 as [|b pre w y st ps tl Hp Hm Hw Lw Ha Hb Hs IH]; intros HQ; [split; [constructor|exact HQ]|].
    apply Forall_app in HQ. destruct HQ as [Q1 HQ]. pose proof HQ as HQ0. apply Forall_app in HQ. destruct HQ as [Q2 Q3]. destruct (IH Q3) as [I1 I2]. split; [|exact I2]. constructor; [|exact I1].
    cbn [fst snd]. split; [exact Q1|]. split; [exact Q2|]. apply (mrel_caps Q r _ _ (match_at_some _ _ _ _ _ _ Hm)). split; [exact HQ0|constructor].
  Qed.
  (** the characters of the result are those of the text and of the template *)
  Lemma sub_in Q r t s : nullable r = false -> Forall (fun i => match i with TLit s => Forall Q s | _ => True end) t -> Forall Q s -> Forall Q (sub U ic r t s).
  Proof.
    intros HN Ht Hs. destruct (sub_scan r t s HN) as (ps & tl & Hsc & ->). destruct (scan_in Q _ _ _ _ _ Hsc Hs) as [H1 H2].
    unfold subst_of. apply Forall_app. split; [|exact H2]. clear - H1 Ht. induction H1 as [|p ps (A & B & C) H1 IH]; cbn; [constructor|]. rewrite !Forall_app. split; [split; [exact A|apply expand_in; assumption]|exact IH].
  Qed.
End Scan.

(** ** patterns without lookaround: the words are all that matters *)
Fixpoint pure (r : re) : bool :=
  match r with
  | Eps | Chr _ => true
  | Seq a b | Alt a b => pure a && pure b
  | Star _ a | Grp _ a => pure a
  | _ => false
  end.
Section Pure.
  Context (U : udb) (ic : bool).
  Lemma lang_mrel r : pure r = true -> forall x, lang U ic r x -> forall b a cp, exists cp',
    mrel U ic r {| bef := b; aft := x ++ a; caps := cp |} {| bef := rev x ++ b; aft := a; caps := cp' |}.
  Proof.
    induction r as [|cs|r1 IH1 r2 IH2|r1 IH1 r2 IH2|g0 r IH|n r IH|pos r IH|pos l|pos| |]; cbn [pure lang]; intros Hp x Hx b a cp; try discriminate.
    - subst x. exists cp. constructor.
    - destruct Hx as (c & -> & Hc). exists cp. constructor. exact Hc.
    - apply andb_true_iff in Hp. destruct Hp as [P1 P2]. destruct Hx as (y & z & -> & Hy & Hz). rewrite <- app_assoc.
      destruct (IH1 P1 y Hy b (z ++ a) cp) as (c1 & R1). destruct (IH2 P2 z Hz (rev y ++ b) a c1) as (c2 & R2). exists c2. rewrite rev_app_distr, <- app_assoc. econstructor; eauto.
    - apply andb_true_iff in Hp. destruct Hp as [P1 P2]. destruct Hx as [Hx|Hx]; [destruct (IH1 P1 x Hx b a cp) as (c1 & R1)|destruct (IH2 P2 x Hx b a cp) as (c1 & R1)]; exists c1; [apply RAlt1|apply RAlt2]; exact R1.
    - destruct Hx as (l & -> & Hl). revert b cp. induction Hl as [|y l Hy Hl IHl]; intros b cp; cbn [concat].
      + exists cp. constructor.
      + destruct y as [|c y]; [apply IHl|]. rewrite <- app_assoc. destruct (IH Hp _ Hy b (concat l ++ a) cp) as (c1 & R1).
        destruct (IHl (rev (c :: y) ++ b) c1) as (c2 & R2). exists c2. rewrite rev_app_distr, <- app_assoc. eapply RStar1; [exact R1| |exact R2].
        cbn [aft]. rewrite !app_length. cbn [length]. lia.
    - destruct (IH Hp x Hx b a cp) as (c1 & R1). eexists. exact (RGrp _ _ n r _ _ R1).
  Qed.
  Lemma no_match_lang r b a : pure r = true -> match_at U ic r b a = None -> forall x y, a = x ++ y -> ~ lang U ic r x.
  Proof. intros Hp Hm x y -> Hx. destruct (lang_mrel r Hp x Hx b y []) as (cp & R). exact (match_at_none _ _ _ _ _ Hm _ R). Qed.
  (** greedy repetition of characters: it stops before another one *)
  Lemma greedy_stop cs st st' : m U ic (Star true (Chr cs)) st Some = Some st' -> match aft st' with c :: _ => cset_match U ic cs c = false | [] => True end.
  Proof.
    rewrite m_star. intros H. assert (G : forall fuel st st', length (aft st) <= fuel -> loop U ic (Chr cs) true Some fuel st = Some st' -> match aft st' with c :: _ => cset_match U ic cs c = false | [] => True end).
    { clear. induction fuel as [|f IH]; intros st st' Hl H; cbn [loop] in H.
      - injection H as <-. destruct (aft st); [exact I|cbn in Hl; lia].
      - cbn [m] in H. destruct (aft st) as [|c a] eqn:Ea.
        + injection H as <-. rewrite Ea. exact I.
        + destruct (cset_match U ic cs c) eqn:Ec.
          * cbn [aft] in H. replace (length a <? length (c :: a)) with true in H by (symmetry; apply Nat.ltb_lt; cbn; lia).
            change (loop U ic (Chr cs) true Some f {| bef := c :: bef st; aft := a; caps := caps st |}) with (loop U ic (Chr cs) true Some f {| bef := c :: bef st; aft := a; caps := caps st |}) in H.
            destruct (loop U ic (Chr cs) true Some f {| bef := c :: bef st; aft := a; caps := caps st |}) as [x|] eqn:El.
            -- injection H as <-. eapply (IH {| bef := c :: bef st; aft := a; caps := caps st |}); [cbn in *; lia|exact El].
            -- exfalso. clear - El. destruct f; cbn [loop] in El; [discriminate|]. destruct (m U ic (Chr cs) _ _); discriminate.
          * injection H as <-. rewrite Ea. exact Ec. }
    eapply G; [|exact H]. lia.
  Qed.
  (** lazy repetition of characters: it stops as soon as what follows succeeds *)
  Lemma lazy_stop cs k st x : m U ic (Star false (Chr cs)) st k = Some x -> exists y rest, aft st = y ++ rest /\ Forall (fun c => cset_match U ic cs c = true) y /\
    k {| bef := rev y ++ bef st; aft := rest; caps := caps st |} = Some x /\
    (forall u v, y = u ++ v -> v <> [] -> k {| bef := rev u ++ bef st; aft := v ++ rest; caps := caps st |} = None).
  Proof.
    rewrite m_star. generalize (length (aft st)) as fuel. intros fuel; revert st. induction fuel as [|f IH]; intros st H; cbn [loop] in H.
    - exists [], (aft st). destruct st; cbn in *. split; [reflexivity|]. split; [constructor|]. split; [exact H|]. intros u v E. symmetry in E. apply app_eq_nil in E. tauto.
    - destruct (k st) as [z|] eqn:Ek.
      + injection H as ->. exists [], (aft st). destruct st; cbn in *. split; [reflexivity|]. split; [constructor|]. split; [exact Ek|]. intros u v E. symmetry in E. apply app_eq_nil in E. tauto.
      + cbn [m] in H. destruct (aft st) as [|c a] eqn:Ea; [discriminate|]. destruct (cset_match U ic cs c) eqn:Ec; [|discriminate]. cbn [aft] in H.
        replace (length a <? length (c :: a)) with true in H by (symmetry; apply Nat.ltb_lt; cbn; lia).
        destruct (IH {| bef := c :: bef st; aft := a; caps := caps st |} H) as (y & rest & E1 & E2 & E3 & E4). cbn [aft bef caps] in *.
        exists (c :: y), rest. split; [rewrite E1; reflexivity|]. split; [constructor; assumption|]. split; [cbn [rev]; rewrite <- app_assoc; exact E3|].
        intros u v E Hv. destruct u as [|d u]; cbn [app] in E.
        * subst v. cbn [rev app]. rewrite <- E1. destruct st as [b0 a0 c0]; cbn in *. subst a0. exact Ek.
        * injection E as <- E. cbn [rev]. rewrite <- app_assoc. apply E4; assumption.
  Qed.
  Lemma cc_exact c d : cset_match U false (cc c) d = true <-> d = c.
  Proof.
    unfold cset_match, cc. cbn [cs_neg cs_items existsb citem_match]. rewrite !orb_false_r, xorb_false_l, andb_true_iff, !N.leb_le. split; [|intros ->]; lia.
  Qed.
End Pure.
