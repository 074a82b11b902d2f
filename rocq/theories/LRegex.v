(** The backtracking matcher of Regex.v against a declarative relation. *)
From Coq Require Import Ascii String.
From Coq Require Import List NArith ZArith Arith Bool Lia.
From Verif Require Import PyBase Regex LBase.
Import ListNotations.
Local Open Scope nat_scope.

Section Rel.
  Context (U : udb) (ic : bool).
  Notation m := (m U ic).
  Notation cset_match := (cset_match U ic).

  Inductive mrel : re -> mst -> mst -> Prop :=
  | REps st : mrel Eps st st
  | RChr cs c b a cp : cset_match cs c = true -> mrel (Chr cs) {| bef := b; aft := c :: a; caps := cp |} {| bef := c :: b; aft := a; caps := cp |}
  | RSeq r1 r2 st st1 st2 : mrel r1 st st1 -> mrel r2 st1 st2 -> mrel (Seq r1 r2) st st2
  | RAlt1 r1 r2 st st1 : mrel r1 st st1 -> mrel (Alt r1 r2) st st1
  | RAlt2 r1 r2 st st1 : mrel r2 st st1 -> mrel (Alt r1 r2) st st1
  | RStar0 g r st : mrel (Star g r) st st
  | RStar1 g r st st1 st2 : mrel r st st1 -> length (aft st1) < length (aft st) -> mrel (Star g r) st1 st2 -> mrel (Star g r) st st2
  | RGrp n r st st1 : mrel r st st1 -> mrel (Grp n r) st {| bef := bef st1; aft := aft st1; caps := (n, consumed st st1) :: caps st1 |}
  | RLook r st st1 : m r st (fun st' => Some st') = Some st1 -> mrel (Look true r) st {| bef := bef st; aft := aft st; caps := caps st1 |}
  | RNotLook r st : m r st (fun st' => Some st') = None -> mrel (Look false r) st st
  | RBehind pos l st : Bool.eqb pos (behind_match U ic (rev l) (bef st)) = true -> mrel (Behind pos l) st st
  | RBound pos st : Bool.eqb pos (at_word_boundary U (bef st) (aft st)) = true -> mrel (Bound pos) st st
  | RBol st : bef st = [] -> mrel Bol st st
  | REol st : aft st = [] \/ aft st = [10%N] -> mrel Eol st st.

  (** the loop of the matcher *)
  Definition loop (r1 : re) (g : bool) (k : mst -> option mst) : nat -> mst -> option mst :=
    fix loop (fuel : nat) (st0 : mst) : option mst :=
      match fuel with
      | O => k st0
      | S f =>
        if g then
          match m r1 st0 (fun st' => if (length (aft st') <? length (aft st0))%nat then loop f st' else None) with
          | Some x => Some x
          | None => k st0
          end
        else
          match k st0 with
          | Some x => Some x
          | None => m r1 st0 (fun st' => if (length (aft st') <? length (aft st0))%nat then loop f st' else None)
          end
      end.
  Lemma m_star g r st k : m (Star g r) st k = loop r g k (length (aft st)) st.
  Proof. reflexivity. Qed.

  Definition complete (r : re) : Prop := forall st k,
    match m r st k with
    | Some x => exists st1, mrel r st st1 /\ k st1 = Some x
    | None => forall st1, mrel r st st1 -> k st1 = None
    end.
  Lemma loop_complete r g k : complete r -> forall fuel st, length (aft st) <= fuel ->
    match loop r g k fuel st with
    | Some x => exists st1, mrel (Star g r) st st1 /\ k st1 = Some x
    | None => forall st1, mrel (Star g r) st st1 -> k st1 = None
    end.
  Proof.
    intros Hr. induction fuel as [|f IH]; intros st Hl.
    - cbn [loop]. destruct (k st) eqn:E; [exists st; split; [constructor|exact E]|].
      intros st1 H. inversion H as [| | | | |g' r' st'|g' r' st' sta stb H1 H2 H3| | | | | | |]; subst; [exact E|]. lia.
    - cbn [loop]. set (kk := fun st' => if length (aft st') <? length (aft st) then loop r g k f st' else None).
      pose proof (Hr st kk) as HR.
      assert (Hsome : forall x, m r st kk = Some x -> exists st1, mrel (Star g r) st st1 /\ k st1 = Some x).
      { intros x E. rewrite E in HR. destruct HR as (st1 & H1 & H2). unfold kk in H2. destruct (Nat.ltb_spec (length (aft st1)) (length (aft st))) as [Hlt|]; [|discriminate].
        specialize (IH st1 ltac:(lia)). rewrite H2 in IH. destruct IH as (st2 & H3 & H4). exists st2. split; [eapply RStar1; eassumption|exact H4]. }
      assert (Hnone : m r st kk = None -> k st = None -> forall st1, mrel (Star g r) st st1 -> k st1 = None).
      { intros E Ek st1 H. rewrite E in HR. inversion H as [| | | | |g' r' st'|g' r' st' sta stb H1 H2 H3| | | | | | |]; subst; [exact Ek|].
        specialize (HR sta H1). unfold kk in HR. destruct (Nat.ltb_spec (length (aft sta)) (length (aft st))); [|lia]. specialize (IH sta ltac:(lia)). rewrite HR in IH. apply IH. exact H3. }
      destruct g.
      + destruct (m r st kk) as [x|] eqn:E; [apply Hsome; reflexivity|]. destruct (k st) eqn:Ek; [exists st; split; [constructor|exact Ek]|]. apply Hnone; reflexivity.
      + destruct (k st) eqn:Ek; [exists st; split; [constructor|exact Ek]|]. destruct (m r st kk) as [x|] eqn:E; [apply Hsome; reflexivity|]. apply Hnone; reflexivity.
  Qed.
  Theorem m_complete r : complete r.
  Proof.
    induction r as [|cs|r1 IH1 r2 IH2|r1 IH1 r2 IH2|g r IH|n r IH|pos r IH|pos l|pos| |]; intros st k.
    - cbn. destruct (k st) eqn:E; [exists st; split; [constructor|exact E]|]. intros st1 H. inversion H; subst. exact E.
    - destruct st as [b [|c a] cp]; cbn.
      + intros st1 H. inversion H.
      + destruct (cset_match cs c) eqn:Ec.
        * destruct (k _) eqn:E; [eexists; split; [constructor; exact Ec|exact E]|]. intros st1 H. inversion H; subst. exact E.
        * intros st1 H. inversion H; subst. congruence.
    - cbn. specialize (IH1 st (fun st' => m r2 st' k)). destruct (m r1 st _) as [x|] eqn:E.
      + destruct IH1 as (st1 & H1 & H2). specialize (IH2 st1 k). rewrite H2 in IH2. destruct IH2 as (st2 & H3 & H4). exists st2. split; [econstructor; eassumption|exact H4].
      + intros st2 H. inversion H as [| |r1' r2' st' st1 st2' Ha Hb| | | | | | | | | | |]; subst. specialize (IH1 _ Ha). specialize (IH2 st1 k). rewrite IH1 in IH2. apply IH2. assumption.
    - cbn. specialize (IH1 st k). destruct (m r1 st k) as [x|] eqn:E.
      + destruct IH1 as (st1 & H1 & H2). exists st1. split; [apply RAlt1; exact H1|exact H2].
      + specialize (IH2 st k). destruct (m r2 st k) as [x|] eqn:E2.
        * destruct IH2 as (st1 & H1 & H2). exists st1. split; [apply RAlt2; exact H1|exact H2].
        * intros st1 H. inversion H; subst; auto.
    - rewrite m_star. apply loop_complete; [exact IH|lia].
    - cbn. specialize (IH st (fun st' => k {| bef := bef st'; aft := aft st'; caps := (n, consumed st st') :: caps st' |})). destruct (m r st _) as [x|] eqn:E.
      + destruct IH as (st1 & H1 & H2). eexists. split; [constructor; exact H1|exact H2].
      + intros st1 H. inversion H; subst. apply IH. assumption.
    - cbn. destruct (m r st (fun st' => Some st')) as [st1|] eqn:E; destruct pos.
      + destruct (k _) eqn:Ek; [eexists; split; [apply RLook; exact E|exact Ek]|]. intros st2 H. inversion H; subst. rewrite E in H1. injection H1 as <-. exact Ek.
      + intros st2 H. inversion H; subst. congruence.
      + intros st2 H. inversion H; subst. congruence.
      + destruct (k st) eqn:Ek; [eexists; split; [apply RNotLook; exact E|exact Ek]|]. intros st2 H. inversion H; subst. exact Ek.
    - cbn. destruct (Bool.eqb pos _) eqn:E.
      + destruct (k st) eqn:Ek; [eexists; split; [constructor; exact E|exact Ek]|]. intros st2 H. inversion H; subst. exact Ek.
      + intros st2 H. inversion H; subst. congruence.
    - cbn. destruct (Bool.eqb pos _) eqn:E.
      + destruct (k st) eqn:Ek; [eexists; split; [constructor; exact E|exact Ek]|]. intros st2 H. inversion H; subst. exact Ek.
      + intros st2 H. inversion H; subst. congruence.
    - cbn. destruct (bef st) eqn:E.
      + destruct (k st) eqn:Ek; [eexists; split; [constructor; exact E|exact Ek]|]. intros st2 H. inversion H; subst. exact Ek.
      + intros st2 H. inversion H; subst. congruence.
    - cbn. assert (D : (aft st = [] \/ aft st = [10%N]) \/ (match aft st with [] => k st | [c] => if N.eqb c 10 then k st else None | _ => None end = None /\ ~ (aft st = [] \/ aft st = [10%N]))).
      { destruct (aft st) as [|c [|d a]]; [left; auto| |right; split; [reflexivity|intros [F|F]; discriminate]]. destruct (N.eqb_spec c 10) as [->|Hc]; [left; auto|right]. split; [reflexivity|]. intros [F|F]; congruence. }
      destruct D as [D|[D1 D2]].
      + assert (E : match aft st with [] => k st | [c] => if N.eqb c 10 then k st else None | _ => None end = k st) by (destruct D as [->| ->]; reflexivity).
        rewrite E. destruct (k st) eqn:Ek; [eexists; split; [constructor; exact D|exact Ek]|]. intros st2 H. inversion H; subst. exact Ek.
      + rewrite D1. intros st2 H. inversion H; subst. contradiction.
  Qed.
  Lemma m_some r st k x : m r st k = Some x -> exists st1, mrel r st st1 /\ k st1 = Some x.
  Proof. intros H. pose proof (m_complete r st k) as C. rewrite H in C. exact C. Qed.
  Lemma m_none r st k : m r st k = None -> forall st1, mrel r st st1 -> k st1 = None.
  Proof. intros H. pose proof (m_complete r st k) as C. rewrite H in C. exact C. Qed.
  Lemma match_at_some r b a st : match_at U ic r b a = Some st -> mrel r {| bef := b; aft := a; caps := [] |} st.
  Proof. intros H. apply m_some in H. destruct H as (st1 & H & E). injection E as <-. exact H. Qed.
  Lemma fullmatch_some r s st : fullmatch U ic r s = Some st -> mrel r {| bef := []; aft := s; caps := [] |} st /\ aft st = [].
  Proof. intros H. apply m_some in H. destruct H as (st1 & H & E). destruct (aft st1) eqn:Ea; [|discriminate]. injection E as <-. auto. Qed.
  Lemma match_at_none r b a : match_at U ic r b a = None -> forall st, ~ mrel r {| bef := b; aft := a; caps := [] |} st.
  Proof. intros H st F. pose proof (m_none _ _ _ H st F). discriminate. Qed.

  (** what is consumed is the difference of the texts *)
  Lemma mrel_text r st st' : mrel r st st' -> exists x, aft st = x ++ aft st' /\ bef st' = rev x ++ bef st.
  Proof.
    induction 1 as [st|cs c b a cp Hc|r1 r2 st st1 st2 _ (x & A1 & B1) _ (y & A2 & B2)| | |g r st|g r st st1 st2 _ (x & A1 & B1) _ _ (y & A2 & B2)| | | | | | |];
      try (exists []; split; reflexivity); try assumption.
    - exists [c]. split; reflexivity.
    - exists (x ++ y). rewrite A1, A2, B2, B1, rev_app_distr, !app_assoc. split; reflexivity.
    - exists (x ++ y). rewrite A1, A2, B2, B1, rev_app_distr, !app_assoc. split; reflexivity.
  Qed.
  Lemma consumed_eq st st' x : bef st' = rev x ++ bef st -> consumed st st' = x.
  Proof.
    intros H. unfold consumed. rewrite H, app_length, Nat.add_sub, rev_length. rewrite firstn_app, rev_length, Nat.sub_diag, firstn_O, app_nil_r.
    rewrite <- (rev_length x), firstn_all. apply rev_involutive.
  Qed.
  Lemma matched_eq b st x : bef st = rev x ++ b -> matched b st = x.
  Proof. intros H. change (matched b st) with (consumed {| bef := b; aft := []; caps := [] |} st). apply consumed_eq. exact H. Qed.

  (** ** The words a pattern may consume, whatever the context: lookarounds consume nothing *)
  Fixpoint lang (r : re) (x : str) : Prop :=
    match r with
    | Chr cs => exists c, x = [c] /\ cset_match cs c = true
    | Seq r1 r2 => exists y z, x = y ++ z /\ lang r1 y /\ lang r2 z
    | Alt r1 r2 => lang r1 x \/ lang r2 x
    | Star _ r1 => exists l, x = concat l /\ Forall (lang r1) l
    | Grp _ r1 => lang r1 x
    | _ => x = []
    end.
  Lemma mrel_lang r st st' : mrel r st st' -> exists x, aft st = x ++ aft st' /\ bef st' = rev x ++ bef st /\ lang r x.
  Proof.
    induction 1 as [st|cs c b a cp Hc|r1 r2 st st1 st2 _ (x & A1 & B1 & L1) _ (y & A2 & B2 & L2)|r1 r2 st st1 _ (x & A & B & L)|r1 r2 st st1 _ (x & A & B & L)|g r st|g r st st1 st2 _ (x & A1 & B1 & L1) _ _ (y & A2 & B2 & L2)|n r st st1 _ (x & A & B & L)| | | | | |];
      try solve [exists []; repeat split; reflexivity]; try solve [exists x; cbn; auto].
    - exists [c]. cbn. eauto.
    - exists (x ++ y). rewrite A1, A2, B2, B1, rev_app_distr, !app_assoc. cbn. split; [reflexivity|]. split; [reflexivity|]. exists x, y. auto.
    - exists []. cbn. repeat split. exists []. auto.
    - exists (x ++ y). rewrite A1, A2, B2, B1, rev_app_distr, !app_assoc. split; [reflexivity|]. split; [reflexivity|]. destruct L2 as (l & -> & Hl). exists (x :: l). auto.
  Qed.
  Lemma lang_word s x : lang (word s) x -> Forall2 (fun c d => cset_match (cc c) d = true) s x.
  Proof.
    revert x. induction s as [|c [|d s] IH]; intros x H.
    - cbn in H. subst. constructor.
    - cbn [word] in H. destruct H as (e & -> & He). repeat constructor. exact He.
    - destruct H as (y & z & -> & (e & -> & He) & Hz). cbn [app]. constructor; [exact He|]. apply IH. exact Hz.
  Qed.
  Lemma lang_alts l x : l <> [] -> lang (alts l) x -> exists r, In r l /\ lang r x.
  Proof.
    induction l as [|r [|r' l] IH]; intros Hl H; [congruence|exists r; split; [left; reflexivity|exact H]|].
    destruct H as [H|H]; [exists r; split; [left; reflexivity|exact H]|]. destruct (IH ltac:(discriminate) H) as (r0 & H1 & H2). exists r0. split; [right; exact H1|exact H2].
  Qed.
  Lemma lang_star_chr g cs x : lang (Star g (Chr cs)) x -> Forall (fun c => cset_match cs c = true) x.
  Proof.
    intros (l & -> & H). induction H as [|y l (c & -> & Hc) _ IH]; [constructor|]. cbn. constructor; assumption.
  Qed.
  Lemma lang_plus_chr cs x : lang (plus (Chr cs)) x -> x <> [] /\ Forall (fun c => cset_match cs c = true) x.
  Proof. intros (y & z & -> & (c & -> & Hc) & Hz). split; [discriminate|]. constructor; [exact Hc|]. eapply lang_star_chr. exact Hz. Qed.
  Lemma cc_self (OK : udb_ok U) c : cset_match (cc c) c = true.
  Proof.
    assert (E : existsb (fun d => (c <=? d) && (d <=? c))%N (if ic then u_variants U c else [c]) = true).
    { apply existsb_exists. exists c. split; [destruct ic; [apply (ok_var_self _ OK)|left; reflexivity]|rewrite !N.leb_refl; reflexivity]. }
    unfold Regex.cset_match, cc. cbn. rewrite E. reflexivity.
  Qed.
End Rel.
