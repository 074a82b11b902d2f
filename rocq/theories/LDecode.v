(** Texts with placeholders: what they stand for, and how the rules of the tokenizer rewrite it. *)
From Coq Require Import Ascii String.
From Coq Require Import List NArith ZArith Arith Bool Lia.
From Verif Require Import PyBase Regex MTokenizer SText STok LBase LText LRegex LSub LSentencizer LRestore LTok LTokWords.
Import ListNotations.
Local Open Scope nat_scope.

(** what a text stands for: characters and marks *)
Inductive dch := C (c : char) | M (m : str).
Definition res_chars : list char := [3898; 3899; 10629; 10630]%N.
(** the characters inside a placeholder or a mark *)
Definition inner_chars : list char := lit "NSDGELRPOTC0123456789_".

Section Decode.
  Context (U : udb) (OK : udb_ok U) (rs : list char) (RS : incl rs res_chars).
  (** the characters at both ends of a placeholder or a mark: not in the plain text *)
  Definition fr : list char := 95%N :: rs.
  Definition plainc (c : char) : Prop := ~ In c fr.
  Definition rare (c : char) : Prop := ~ In c (fr ++ inner_chars).

  Definition framed (a : str) : Prop := exists f1 mid f2, a = f1 :: mid ++ [f2] /\ In f1 fr /\ In f2 fr /\ Forall (fun c => In c (fr ++ inner_chars)) mid.
  Definition envt := list (str * list dch).
  Definition framed_env (env : envt) : Prop := forall a v, In (a, v) env -> framed a.
  Inductive dec (env : envt) : str -> list dch -> Prop :=
  | dec_nil : dec env [] []
  | dec_chr c t d : plainc c -> dec env t d -> dec env (c :: t) (C c :: d)
  | dec_atom a v t d : In (a, v) env -> dec env t d -> dec env (a ++ t) (v ++ d).

  Lemma dec_app env t1 d1 t2 d2 : dec env t1 d1 -> dec env t2 d2 -> dec env (t1 ++ t2) (d1 ++ d2).
  Proof. intros H1 H2. induction H1 as [|c t d Hc H IH|a v t d Hi H IH]; [exact H2|constructor; assumption|]. rewrite <- !app_assoc. constructor; assumption. Qed.
  Lemma dec_plain env s : Forall plainc s -> dec env s (map C s).
  Proof. induction 1; cbn; constructor; auto. Qed.
  Lemma dec_one env a v : In (a, v) env -> dec env a v.
  Proof. intros H. rewrite <- (app_nil_r a), <- (app_nil_r v). constructor; [exact H|constructor]. Qed.
  Lemma dec_mono env env' t d : incl env env' -> dec env t d -> dec env' t d.
  Proof. intros Hi H. induction H; constructor; auto. Qed.

  (** a text is cut between its units, or inside a placeholder *)
  Lemma dec_cut env pre : forall z d, dec env (pre ++ z) d ->
    (exists d1 d2, d = d1 ++ d2 /\ dec env pre d1 /\ dec env z d2) \/
    (exists pre' a1 a2 z' v d1 d2, pre = pre' ++ a1 /\ z = a2 ++ z' /\ a1 <> [] /\ a2 <> [] /\ In (a1 ++ a2, v) env /\ d = d1 ++ v ++ d2 /\ dec env pre' d1 /\ dec env z' d2).
  Proof.
    intros z d H. remember (pre ++ z) as t eqn:E. revert pre E. induction H as [|c t d Hc H IH|a v t d Hi H IH]; intros pre E.
    - symmetry in E. apply app_eq_nil in E. destruct E as [-> ->]. left. exists [], []. repeat split; constructor.
    - destruct pre as [|c' pre]; [cbn in E; subst z; left; exists [], (C c :: d); repeat split; constructor; assumption|]. injection E as <- E. destruct (IH pre E) as [(d1 & d2 & -> & H1 & H2)|(pre' & a1 & a2 & z' & v & d1 & d2 & -> & -> & N1 & N2 & Hi & -> & H1 & H2)].
      + left. exists (C c :: d1), d2. repeat split; [constructor; assumption|exact H2].
      + right. exists (c :: pre'), a1, a2, z', v, (C c :: d1), d2. repeat split; auto. constructor; assumption.
    - destruct (app_eq_app _ _ _ _ E) as (l & [[E1 E2]|[E1 E2]]).
      + (* the cut is in [a] *) destruct pre as [|c pre]; [left; exists [], (v ++ d); cbn in E; subst z; repeat split; [constructor|constructor; assumption]|]. destruct l as [|x l].
        * rewrite app_nil_r in E1. subst a. cbn in E2. subst z. left. exists v, d. repeat split; [apply dec_one; exact Hi|exact H].
        * right. exists [], (c :: pre), (x :: l), t, v, [], d. subst. repeat split; auto; try discriminate; try constructor. 
      + subst pre. destruct (IH l E2) as [(d1 & d2 & -> & H1 & H2)|(pre' & a1 & a2 & z' & v' & d1 & d2 & -> & -> & N1 & N2 & Hi' & -> & H1 & H2)].
        * left. exists (v ++ d1), d2. rewrite <- app_assoc. repeat split; [constructor; assumption|exact H2].
        * right. exists (a ++ pre'), a1, a2, z', v', (v ++ d1), d2. rewrite <- !app_assoc. repeat split; auto. constructor; assumption.
  Qed.
  Lemma dec_plain_inv env w y : framed_env env -> Forall plainc w -> forall d, dec env (w ++ y) d -> exists d2, d = map C w ++ d2 /\ dec env y d2.
  Proof.
    intros FE Hw. induction Hw as [|c w Hc Hw IH]; intros d H; [exists d; auto|]. cbn [app] in H. inversion H as [|c' t d' Hc' H' E1 E2|a v t d' Hi H' E1 E2]; subst.
    - destruct (IH _ H') as (d2 & -> & H2). exists d2. auto.
    - exfalso. destruct (FE _ _ Hi) as (f1 & mid & f2 & -> & F1 & _). cbn in E1. injection E1 as -> _. exact (Hc F1).
  Qed.
  Lemma dec_split env pre w y d : framed_env env -> Forall plainc w -> (exists c, In c w /\ rare c) -> dec env (pre ++ w ++ y) d ->
    exists d1 d2, d = d1 ++ map C w ++ d2 /\ dec env pre d1 /\ dec env y d2.
  Proof.
    intros FE Hw (x & Hx & Hr) H. destruct (dec_cut _ _ _ _ H) as [(d1 & d2 & -> & H1 & H2)|(pre' & a1 & a2 & z' & v & d1 & d2 & _ & E & _ & N2 & Hi & _)].
    - destruct (dec_plain_inv _ _ _ FE Hw _ H2) as (d3 & -> & H3). exists d1, d3. auto.
    - exfalso. destruct (FE _ _ Hi) as (f1 & mid & f2 & Ea & F1 & F2 & Fm).
      assert (A2 : forall c, In c a2 -> In c (fr ++ inner_chars)).
      { intros c Hc. assert (In c (a1 ++ a2)) as Hc2 by (rewrite in_app_iff; auto). rewrite Ea in Hc2. cbn in Hc2. rewrite in_app_iff in Hc2. cbn in Hc2. rewrite Forall_forall in Fm. rewrite in_app_iff. destruct Hc2 as [<-|[Hc2|[<-|[]]]]; auto. apply in_app_iff. auto. }
      assert (L : exists a3, a2 = a3 ++ [f2]).
      { destruct a2 as [|c a2 _] using rev_ind; [congruence|]. exists a2. rewrite app_assoc in Ea. change (f1 :: mid ++ [f2]) with ((f1 :: mid) ++ [f2]) in Ea. apply app_inj_tail in Ea. destruct Ea as [_ ->]. reflexivity. }
      destruct L as (a3 & ->). destruct (app_eq_app _ _ _ _ E) as (l & [[E1 E2]|[E1 E2]]).
      + (* w = a3 ++ [f2] ++ l *) rewrite Forall_forall in Hw. apply (Hw f2); [|exact F2]. rewrite E1, !in_app_iff. left. right. left. reflexivity.
      + apply Hr. apply A2. rewrite E1, in_app_iff. auto.
  Qed.

  (** ** patterns that do not consume the end characters of placeholders *)
  Definition avoid_item (f : char) (i : citem) : bool :=
    match i with
    | CRange lo hi => negb ((lo <=? f) && (f <=? hi))%N && ((hi <? 128)%N || (N.eqb lo hi && existsb (N.eqb lo) code_symbols))
    | CSpace | CDigit => true
    | CWord => false
    end.
  Fixpoint avoidb (r : re) : bool :=
    match r with
    | Chr cs => negb (cs_neg cs) && forallb (fun f => forallb (avoid_item f) (cs_items cs)) (95%N :: res_chars)
    | Seq a b | Alt a b => avoidb a && avoidb b
    | Star _ a | Grp _ a => avoidb a
    | _ => true
    end.
  Lemma avoid_cset ic cs c : negb (cs_neg cs) && forallb (fun f => forallb (avoid_item f) (cs_items cs)) (95%N :: res_chars) = true -> cset_match U ic cs c = true -> plainc c.
  Proof.
    intros H Hm Hc. apply andb_true_iff in H. destruct H as [Hn H]. apply negb_true_iff in Hn. rewrite forallb_forall in H.
    assert (Hf : In c (95%N :: res_chars)) by (destruct Hc as [<-|Hc]; [left; reflexivity|right; apply RS; exact Hc]). specialize (H c Hf). rewrite forallb_forall in H.
    unfold cset_match in Hm. rewrite Hn, xorb_false_l in Hm. apply existsb_exists in Hm. destruct Hm as (i & Hi & Hm). specialize (H i Hi).
    assert (HS : u_space U c = false /\ u_digit U c = false).
    { destruct Hf as [<-|Hf]; [rewrite (ok_space _ OK), (ok_digit _ OK) by lia; split; reflexivity|]. assert (In c code_symbols) by (cbn in Hf |- *; tauto). split; [apply (ok_symbols_space _ OK)|apply (ok_symbols_digit _ OK)]; assumption. }
    destruct i as [lo hi| | |]; cbn [avoid_item citem_match] in *; try (destruct HS; congruence).
    apply andb_true_iff in H. destruct H as [H1 H2]. apply negb_true_iff in H1. apply existsb_exists in Hm. destruct Hm as (e & He & E).
    assert (e = c); [|subst e; congruence]. destruct ic; [|destruct He as [->|[]]; reflexivity].
    destruct Hf as [<-|Hf].
    - apply andb_true_iff in E. rewrite !N.leb_le in E. apply orb_true_iff in H2. destruct H2 as [H2|H2].
      + apply N.ltb_lt in H2. assert (e < 128)%N as He2 by lia. destruct (ok_var_letter _ OK 95%N e ltac:(lia) He He2) as [->| ->]; reflexivity.
      + apply andb_true_iff in H2. destruct H2 as [H2 H3]. apply N.eqb_eq in H2. subst hi. assert (e = lo) by lia. subst lo. apply mem_in in H3. symmetry. apply (ok_symbols _ OK e 95%N H3). auto.
    - assert (In c code_symbols) as Hs by (cbn in Hf |- *; tauto). apply (ok_symbols _ OK c e Hs). auto.
  Qed.
  Lemma avoid_lang ic r : forall x, avoidb r = true -> lang U ic r x -> Forall plainc x.
  Proof.
    induction r as [|cs|a IHa b IHb|a IHa b IHb|g0 r IH|n r IH|pos r IH|pos cl|pos| |]; intros x Ha H; cbn [avoidb lang] in *; try (subst x; constructor).
    - destruct H as (d & -> & Hd). constructor; [|constructor]. eapply avoid_cset; eauto.
    - apply andb_true_iff in Ha. destruct Ha as [A1 A2]. destruct H as (y & z & -> & Hy & Hz). apply Forall_app. auto.
    - apply andb_true_iff in Ha. destruct Ha as [A1 A2]. destruct H; auto.
    - destruct H as (l & -> & Hl). induction Hl as [|y l Hy Hl IHl]; cbn; [constructor|]. apply Forall_app. auto.
    - auto.
  Qed.

  (** ** rewriting of what a text stands for *)
  Section Rewrite.
    Context (R : list dch -> list dch -> Prop).
    Inductive rewr : list dch -> list dch -> Prop :=
    | rw_refl d : rewr d d
    | rw_seg a w w' b b' : R w w' -> rewr b b' -> rewr (a ++ w ++ b) (a ++ w' ++ b').
    Lemma rewr_app a b b' : rewr b b' -> rewr (a ++ b) (a ++ b').
    Proof. intros H. destruct H as [d|a0 w w' b b' HR H]; [constructor|]. rewrite !(app_assoc a a0). constructor; assumption. Qed.
  End Rewrite.

  (** a rule rewrites the parts it matches *)
  Lemma sub_dec (R : list dch -> list dch -> Prop) env ic r t d0 : framed_env env -> nullable r = false -> avoidb r = true -> (forall x, lang U ic r x -> exists c, In c x /\ rare c) ->
    (forall b w y st, match_at U ic r b (w ++ y) = Some st -> aft st = y -> bef st = rev w ++ b -> Forall plainc w -> lang U ic r w -> (exists db da, d0 = db ++ map C w ++ da) ->
       exists d', dec env (expand t w st) d' /\ R (map C w) d') ->
    forall s, dec env s d0 -> exists d', dec env (sub U ic r t s) d' /\ rewr R d0 d'.
  Proof.
    intros FE HN HA HP HR s Hd. destruct (sub_scan U ic r t s HN) as (ps & tl & Hs & ->).
    assert (G : forall b a ps tl, scan U ic r b a ps tl -> forall db d, d0 = db ++ d -> dec env a d -> exists d', dec env (subst_of t ps tl) d' /\ rewr R d d').
    { clear s Hd ps tl Hs. intros b a ps tl Hs. induction Hs as [b a Hn|b pre w y st ps tl Hpre Hm Hw Lw Ha Hb Hs IH]; intros db d E0 Hd.
      - exists d. split; [exact Hd|constructor].
      - pose proof (avoid_lang ic r w HA Lw) as Pw. destruct (dec_split env pre w y d FE Pw (HP w Lw) Hd) as (d1 & d2 & -> & H1 & H2).
        destruct (IH (db ++ d1 ++ map C w) d2) as (d2' & I1 & I2); [rewrite E0, <- !app_assoc; reflexivity|exact H2|].
        destruct (HR (rev pre ++ b) w y st Hm Ha Hb Pw Lw) as (w' & W1 & W2); [exists (db ++ d1), d2; rewrite E0, <- !app_assoc; reflexivity|].
        exists (d1 ++ w' ++ d2'). unfold subst_of in *. cbn [flat_map fst snd]. split; [|constructor; assumption]. rewrite <- !app_assoc. apply dec_app; [exact H1|]. apply dec_app; assumption. }
    apply (G _ _ _ _ Hs [] d0); [reflexivity|exact Hd].
  Qed.
End Decode.

(** ** what a match consumes, piece by piece *)
Inductive sym := SL (c : char) | SG (n : nat) | SW.
Fixpoint spaceonly (r : re) : bool :=
  match r with
  | Chr cs => negb (cs_neg cs) && match cs_items cs with [CSpace] => true | _ => false end
  | Seq a b | Alt a b => spaceonly a && spaceonly b
  | Star _ a | Grp _ a => spaceonly a
  | _ => true
  end.
Fixpoint groups (r : re) : list nat :=
  match r with
  | Seq a b | Alt a b => groups a ++ groups b
  | Star _ a | Look _ a => groups a
  | Grp n a => n :: groups a
  | _ => []
  end.
Definition disjointb (a b : list nat) : bool := forallb (fun n => negb (existsb (Nat.eqb n) b)) a.
Fixpoint zerow (r : re) : bool :=
  match r with
  | Chr _ => false
  | Seq a b | Alt a b => zerow a && zerow b
  | Star _ a | Grp _ a => zerow a
  | _ => true
  end.
Fixpoint comp (r : re) : option (list sym) :=
  if zerow r then Some [] else if spaceonly r then Some [SW] else
  match r with
  | Chr cs => if cs_neg cs then None else match cs_items cs with [CRange a b] => if N.eqb a b && caseless a then Some [SL a] else None | _ => None end
  | Seq a b => if disjointb (groups a) (groups b) then match comp a, comp b with Some x, Some y => Some (x ++ y) | _, _ => None end else None
  | Grp n a => if existsb (Nat.eqb n) (groups a) then None else Some [SG n]
  | _ => None
  end.
Section Comp.
  Context (U : udb) (OK : udb_ok U) (ic : bool).
  Definition sym_is (st : mst) (x : str) (s : sym) : Prop :=
    match s with SL c => x = [c] | SG n => x = Regex.group st n | SW => Forall (fun c => u_space U c = true) x end.
  Lemma spaceonly_lang r : forall x, spaceonly r = true -> lang U ic r x -> Forall (fun c => u_space U c = true) x.
  Proof.
    induction r as [|cs|a IHa b IHb|a IHa b IHb|g0 r IH|n r IH|pos r IH|pos cl|pos| |]; intros x Ha H; cbn [spaceonly lang] in *; try (subst x; constructor).
    - destruct H as (d & -> & Hd). constructor; [|constructor]. apply andb_true_iff in Ha. destruct Ha as [Hn Hi]. apply negb_true_iff in Hn. unfold cset_match in Hd. rewrite Hn, xorb_false_l in Hd. destruct (cs_items cs) as [|[lo hi| | |] [|i l]]; try discriminate. cbn in Hd. rewrite orb_false_r in Hd. exact Hd.
    - apply andb_true_iff in Ha. destruct Ha as [A1 A2]. destruct H as (y & z & -> & Hy & Hz). apply Forall_app. auto.
    - apply andb_true_iff in Ha. destruct Ha as [A1 A2]. destruct H; auto.
    - destruct H as (l & -> & Hl). induction Hl as [|y l Hy Hl IHl]; cbn; [constructor|]. apply Forall_app. auto.
    - auto.
  Qed.
  Lemma zerow_lang r : forall x, zerow r = true -> lang U ic r x -> x = [].
  Proof.
    induction r as [|cs|a IHa b IHb|a IHa b IHb|g0 r IH|n r IH|pos r IH|pos cl|pos| |]; intros x Ha H; cbn [zerow lang] in *; auto; try discriminate.
    - apply andb_true_iff in Ha. destruct Ha as [A1 A2]. destruct H as (y & z & -> & Hy & Hz). rewrite (IHa y), (IHb z) by assumption. reflexivity.
    - apply andb_true_iff in Ha. destruct Ha as [A1 A2]. destruct H; auto.
    - destruct H as (l & -> & Hl). induction Hl as [|y l Hy Hl IHl]; cbn; [reflexivity|]. rewrite (IH y) by assumption. exact IHl.
  Qed.
  Lemma group_keep r : forall st st' n, mrel U ic r st st' -> ~ In n (groups r) -> Regex.group st' n = Regex.group st n.
  Proof.
    assert (ST : forall g0 r0 n, (forall st st', mrel U ic r0 st st' -> Regex.group st' n = Regex.group st n) -> forall st st', mrel U ic (Star g0 r0) st st' -> Regex.group st' n = Regex.group st n).
    { intros g0 r0 n IH st st' H. remember (Star g0 r0) as s eqn:Es. induction H; try discriminate; [reflexivity|]. injection Es as -> ->. rewrite IHmrel2 by reflexivity. apply IH. assumption. }
    induction r as [|cs|a IHa b IHb|a IHa b IHb|g0 r IH|k r IH|pos r IH|pos cl|pos| |]; intros st st' n H Hn; cbn [groups] in Hn;
      [| | | |eapply ST; [|exact H]; intros s1 s2 Hs; apply IH; assumption| | | | | |].
    - inversion H; reflexivity.
    - inversion H; reflexivity.
    - rewrite in_app_iff in Hn. inversion H; subst. rewrite (IHb st1) by (auto; tauto). apply IHa; [assumption|tauto].
    - rewrite in_app_iff in Hn. inversion H; subst; [apply IHa|apply IHb]; auto.
    - apply grp_inv in H. destruct H as (s1 & H & ->). cbn in Hn. unfold Regex.group at 1. cbn [caps dget]. destruct (Nat.eqb_spec n k); [subst; tauto|]. apply (IH st s1 n H). tauto.
    - inversion H; subst; [|reflexivity]. match goal with Hz : m _ _ _ _ _ = Some _ |- _ => apply m_some in Hz; destruct Hz as (s2 & Hm & E) end. injection E as ->. exact (IH _ _ n Hm Hn).
    - inversion H; reflexivity.
    - inversion H; reflexivity.
    - inversion H; reflexivity.
    - inversion H; reflexivity.
  Qed.
  Lemma disjoint_spec a b n : disjointb a b = true -> In n a -> ~ In n b.
  Proof. unfold disjointb. rewrite forallb_forall. intros H Ha Hb. specialize (H n Ha). apply negb_true_iff in H. assert (existsb (Nat.eqb n) b = true) by (apply existsb_exists; exists n; split; [exact Hb|apply Nat.eqb_refl]). congruence. Qed.
  Lemma comp_groups r : forall l, comp r = Some l -> forall n, In (SG n) l -> In n (groups r).
  Proof.
    induction r as [|cs|a IHa b IHb|a IHa b IHb|g0 r IH|k r IH|pos r IH|pos cl|pos| |]; intros l H n Hn; cbn [comp] in H; (destruct (zerow _); [injection H as <-; destruct Hn|]); destruct (spaceonly _);
      try (injection H as <-; destruct Hn as [Hn|[]]; discriminate); try discriminate.
    - destruct (cs_neg cs); [discriminate|]. destruct (cs_items cs) as [|[lo hi| | |] [|i l0]]; try discriminate. destruct (_ && _)%bool; [|discriminate]. injection H as <-. destruct Hn as [Hn|[]]; discriminate.
    - destruct (disjointb _ _); [|discriminate]. destruct (comp a) as [x|]; [|discriminate]. destruct (comp b) as [y|]; [|discriminate]. injection H as <-. cbn [groups]. rewrite in_app_iff in *. destruct Hn; [left|right]; eauto.
    - destruct (existsb _ _); [discriminate|]. injection H as <-. destruct Hn as [Hn|[]]. injection Hn as ->. left. reflexivity.
  Qed.
  Lemma comp_spec r : forall l st st' x, comp r = Some l -> mrel U ic r st st' -> aft st = x ++ aft st' -> bef st' = rev x ++ bef st ->
    exists xs, x = concat xs /\ Forall2 (sym_is st') xs l.
  Proof.
    assert (SO : forall r st st' x, spaceonly r = true -> mrel U ic r st st' -> aft st = x ++ aft st' -> exists xs, x = concat xs /\ Forall2 (sym_is st') xs [SW]).
    { clear r. intros r st st' x Hs H E. exists [x]. split; [cbn; rewrite app_nil_r; reflexivity|]. constructor; [|constructor]. cbn. apply mrel_lang in H. destruct H as (y & E1 & _ & L). rewrite E in E1. apply app_inv_tail in E1. subst y. eapply spaceonly_lang; eauto. }
    assert (ZW : forall r st st' x, zerow r = true -> mrel U ic r st st' -> aft st = x ++ aft st' -> exists xs, x = concat xs /\ Forall2 (sym_is st') xs []).
    { clear r. intros r st st' x Hs H E. exists []. split; [|constructor]. cbn. apply mrel_lang in H. destruct H as (y & E1 & _ & L). rewrite E in E1. apply app_inv_tail in E1. subst y. eapply zerow_lang; eauto. }
    induction r as [|cs|a IHa b IHb|a IHa b IHb|g0 r IH|k r IH|pos r IH|pos cl|pos| |]; intros l st st' x H Hm E1 E2; cbn [comp] in H;
      match type of H with (if zerow ?r then _ else _) = _ => destruct (zerow r) eqn:Ez; [injection H as <-; eapply ZW; eauto|] end;
      match type of H with (if spaceonly ?r then _ else _) = _ => destruct (spaceonly r) eqn:Es; [injection H as <-; eapply SO; eauto|] end; try discriminate.
    - destruct (cs_neg cs) eqn:En; [discriminate|]. destruct (cs_items cs) as [|[lo hi| | |] [|i l0]] eqn:Ei; try discriminate. destruct (N.eqb lo hi && caseless lo)%bool eqn:Ec; [|discriminate]. injection H as <-. apply andb_true_iff in Ec. destruct Ec as [Ec1 Ec2]. apply N.eqb_eq in Ec1. subst hi.
      apply chr_inv in Hm. destruct Hm as (c & A1 & _ & _ & Hc). unfold cset_match in Hc. rewrite En, Ei, xorb_false_l in Hc. cbn [existsb] in Hc. rewrite orb_false_r in Hc. apply (caseless_range U OK) in Hc; [|exact Ec2]. subst c.
      exists [x]. split; [cbn; rewrite app_nil_r; reflexivity|]. constructor; [|constructor]. cbn. rewrite E1 in A1. change (lo :: aft st') with ([lo] ++ aft st') in A1. apply app_inv_tail in A1. exact A1.
    - destruct (disjointb (groups a) (groups b)) eqn:Ed; [|discriminate]. destruct (comp a) as [la|] eqn:Ea; [|discriminate]. destruct (comp b) as [lb|] eqn:Eb; [|discriminate]. injection H as <-.
      apply seq_inv in Hm. destruct Hm as (s1 & M1 & M2). destruct (mrel_text _ _ _ _ _ M1) as (xa & A1 & B1). destruct (mrel_text _ _ _ _ _ M2) as (xb & A2 & B2).
      assert (x = xa ++ xb) as ->. { rewrite A1, A2, app_assoc in E1. apply app_inv_tail in E1. auto. }
      destruct (IHa _ _ _ _ eq_refl M1 A1 B1) as (xs & -> & F1). destruct (IHb _ _ _ _ eq_refl M2 A2 B2) as (ys & -> & F2). exists (xs ++ ys). rewrite concat_app. split; [reflexivity|]. apply Forall2_app; [|exact F2].
      pose proof (comp_groups a _ Ea) as CG. clear - F1 M2 Ed CG. induction F1 as [|y s ys l Hy F1 IH]; constructor; [|apply IH; intros n Hn; apply CG; right; exact Hn].
      destruct s as [c|n|]; cbn in *; auto. rewrite (group_keep b s1 st' n M2); [exact Hy|]. eapply disjoint_spec; eauto.
    - destruct (existsb (Nat.eqb k) (groups r)) eqn:Eg; [discriminate|]. injection H as <-. apply grp_inv in Hm. destruct Hm as (s1 & Hm & ->). cbn [aft bef] in *. exists [x]. split; [cbn; rewrite app_nil_r; reflexivity|]. constructor; [|constructor]. cbn. unfold Regex.group. cbn [caps dget]. rewrite Nat.eqb_refl. symmetry. apply consumed_eq. exact E2.
  Qed.
End Comp.
