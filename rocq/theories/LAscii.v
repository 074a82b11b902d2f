(** On ASCII texts the matcher and the tokenizer do not depend on the Unicode database. *)
From Coq Require Import Ascii String.
From Coq Require Import List NArith ZArith Arith Bool Lia.
From Verif Require Import PyBase Regex MTokenizer LBase LRegex LSub.
Import ListNotations.
Local Open Scope nat_scope.

Definition low (c : char) : Prop := (c < 128)%N.
Definition item_ok (i : citem) : bool :=
  match i with CRange lo hi => (hi <? 128)%N || ((lo =? hi)%N && existsb (N.eqb lo) code_symbols && (128 <=? lo)%N) | _ => true end.
Definition cset_ok (cs : cset) : bool := forallb item_ok (cs_items cs).
Fixpoint re_ok (r : re) : bool :=
  match r with
  | Chr cs => cset_ok cs
  | Seq a b | Alt a b => re_ok a && re_ok b
  | Star _ r | Grp _ r | Look _ r => re_ok r
  | Behind _ l => forallb cset_ok l
  | _ => true
  end.
Definition temp_low (t : template) : bool := forallb (fun i => match i with TLit s => forallb (fun c => (c <? 128)%N) s | _ => true end) t.
Definition rule_ok (ru : rule) : bool := re_ok (r_pat ru) && temp_low (r_rep ru) && negb (nullable (r_pat ru)).

Section Ascii.
  Context (U : udb) (OK : udb_ok U).
  Notation A := ascii_udb.
  Lemma space_same c : low c -> u_space U c = u_space A c.
  Proof. intros H. rewrite (ok_space _ OK) by exact H. cbn. replace (c <? 128)%N with true by (symmetry; apply N.ltb_lt; exact H). reflexivity. Qed.
  Lemma word_same c : low c -> u_word U c = u_word A c.
  Proof. intros H. rewrite (ok_word _ OK) by exact H. reflexivity. Qed.
  Lemma swap_low c : low c -> low (ascii_swap c).
  Proof. unfold low, ascii_swap. intros H. destruct (is_upper c) eqn:E1; [unfold is_upper in E1; apply andb_true_iff in E1; rewrite !N.leb_le in E1; lia|]. destruct (is_lower c); lia. Qed.
  Lemma item_same ic c i : low c -> item_ok i = true -> citem_match U ic c i = citem_match A ic c i.
  Proof.
    intros Hc Hi. destruct i as [lo hi| | |]; cbn [citem_match].
    - destruct ic; [|reflexivity]. apply eq_true_iff_eq. rewrite !existsb_exists. cbn [item_ok] in Hi. apply orb_true_iff in Hi. destruct Hi as [Hi|Hi].
      + apply N.ltb_lt in Hi. split; intros (d & Hd & E); exists d; (split; [|exact E]); apply andb_true_iff in E; rewrite !N.leb_le in E.
        * destruct (ok_var_letter _ OK c d Hc Hd) as [->| ->]; [lia| |]; cbn [u_variants ascii_udb]; destruct (is_letter c) eqn:EL; cbn; auto.
          left. unfold ascii_swap. unfold is_letter in EL. apply orb_false_iff in EL. destruct EL as [-> ->]. reflexivity.
        * cbn [u_variants ascii_udb] in Hd. destruct (is_letter c); cbn in Hd; (destruct Hd as [<-|Hd]; [apply (ok_var_self _ OK)|]); [|destruct Hd].
          destruct Hd as [<-|[]]. apply (ok_var_swap _ OK). exact Hc.
      + apply andb_true_iff in Hi. destruct Hi as [Hi H3]. apply andb_true_iff in Hi. destruct Hi as [H1 H2]. apply N.eqb_eq in H1. subst hi. apply N.leb_le in H3.
        apply existsb_exists in H2. destruct H2 as (e & He & E2). apply N.eqb_eq in E2. subst e. split; intros (d & Hd & E); exfalso; apply andb_true_iff in E; rewrite !N.leb_le in E; assert (d = lo) by lia; subst d.
        * assert (c = lo) by (apply (ok_symbols _ OK lo c He); right; exact Hd || left; exact Hd). unfold low in Hc. lia.
        * cbn [u_variants ascii_udb] in Hd. pose proof (swap_low c Hc). unfold low in *. destruct (is_letter c); cbn in Hd; destruct Hd as [Hd|Hd]; try lia; destruct Hd as [Hd|[]]; lia.
    - apply space_same. exact Hc.
    - rewrite (ok_digit _ OK) by exact Hc. reflexivity.
    - apply word_same. exact Hc.
  Qed.
  Lemma cset_same ic cs c : cset_ok cs = true -> low c -> cset_match U ic cs c = cset_match A ic cs c.
  Proof.
    intros H Hc. unfold cset_match, cset_ok in *. f_equal. induction (cs_items cs) as [|i l IH]; [reflexivity|]. cbn [forallb existsb] in *. apply andb_true_iff in H. destruct H as [H1 H2].
    rewrite (item_same ic c i Hc H1), IH by exact H2. reflexivity.
  Qed.
  Lemma behind_same ic l b : forallb cset_ok l = true -> Forall low b -> behind_match U ic l b = behind_match A ic l b.
  Proof.
    revert b. induction l as [|cs l IH]; intros [|c b] H Hb; try reflexivity. cbn [forallb behind_match] in *. apply andb_true_iff in H. destruct H as [H1 H2]. inversion Hb; subst.
    rewrite cset_same by assumption. rewrite IH by assumption. reflexivity.
  Qed.
  Lemma bound_same b a : Forall low b -> Forall low a -> at_word_boundary U b a = at_word_boundary A b a.
  Proof.
    intros Hb Ha. destruct b as [|c b], a as [|d a]; cbn [at_word_boundary]; inversion Hb; inversion Ha; subst; rewrite ?(word_same c), ?(word_same d) by assumption; reflexivity.
  Qed.
  Definition st_low (st : mst) : Prop := Forall low (bef st) /\ Forall low (aft st).
  Lemma forallb_rev {T} (p : T -> bool) l : forallb p (rev l) = forallb p l.
  Proof. induction l as [|x l IH]; [reflexivity|]. cbn. rewrite forallb_app, IH. cbn. rewrite andb_true_r. apply andb_comm. Qed.
  Lemma m_same ic r : re_ok r = true -> forall st k k', st_low st -> (forall st', st_low st' -> k st' = k' st') -> m U ic r st k = m A ic r st k'.
  Proof.
    induction r as [|cs|r1 IH1 r2 IH2|r1 IH1 r2 IH2|g0 r IH|n r IH|pos r IH|pos l|pos| |]; intros HR st k k' Hst Hk; cbn [re_ok] in HR.
    - apply Hk. exact Hst.
    - cbn [m]. destruct Hst as [Hb Ha]. destruct (aft st) as [|c a] eqn:E; [reflexivity|]. inversion Ha; subst. rewrite cset_same by assumption. destruct (cset_match A ic cs c); [|reflexivity]. apply Hk. split; cbn; [constructor; assumption|assumption].
    - apply andb_true_iff in HR. destruct HR as [R1 R2]. cbn [m]. apply IH1; [exact R1|exact Hst|]. intros st' H'. apply IH2; assumption.
    - apply andb_true_iff in HR. destruct HR as [R1 R2]. cbn [m]. rewrite (IH1 R1 st k k') by assumption. rewrite (IH2 R2 st k k') by assumption. reflexivity.
    - rewrite !m_star. generalize (length (aft st)) as fuel. intros fuel. revert st Hst. induction fuel as [|f IHf]; intros st Hst; cbn [loop]; [apply Hk; exact Hst|].
      assert (E : m U ic r st (fun st' => if (length (aft st') <? length (aft st))%nat then loop U ic r g0 k f st' else None) =
                  m A ic r st (fun st' => if (length (aft st') <? length (aft st))%nat then loop A ic r g0 k' f st' else None)).
      { apply IH; [exact HR|exact Hst|]. intros st' H'. destruct (_ <? _); [apply IHf; exact H'|reflexivity]. }
      fold (loop U ic r g0 k). fold (loop A ic r g0 k'). rewrite E, (Hk st Hst). reflexivity.
    - cbn [m]. apply IH; [exact HR|exact Hst|]. intros st' H'. apply Hk. exact H'.
    - cbn [m]. rewrite (IH HR st _ (fun st' => Some st') Hst (fun _ _ => eq_refl)). destruct (m A ic r st _) as [st'|]; destruct pos; try reflexivity; apply Hk; exact Hst.
    - cbn [m]. rewrite behind_same; [|rewrite forallb_rev; exact HR|apply Hst]. rewrite (Hk st Hst). reflexivity.
    - cbn [m]. destruct Hst as [Hb Ha]. rewrite bound_same by assumption. rewrite (Hk st (conj Hb Ha)). reflexivity.
    - cbn [m]. rewrite (Hk st Hst). reflexivity.
    - cbn [m]. rewrite (Hk st Hst). reflexivity.
  Qed.
  Lemma match_same ic r b a : re_ok r = true -> Forall low b -> Forall low a -> match_at U ic r b a = match_at A ic r b a.
  Proof. intros HR Hb Ha. apply m_same; [exact HR|split; assumption|reflexivity]. Qed.
  Lemma full_same ic r s : re_ok r = true -> Forall low s -> fullmatch U ic r s = fullmatch A ic r s.
  Proof. intros HR Hs. apply m_same; [exact HR|split; [constructor|exact Hs]|reflexivity]. Qed.
  Lemma match_low ic r b a st : match_at A ic r b a = Some st -> Forall low b -> Forall low a -> st_low st.
  Proof.
    intros E Hb Ha. apply match_at_some in E. destruct (mrel_text _ _ _ _ _ E) as (x & E1 & E2). cbn [aft bef] in *. rewrite E1 in Ha. apply Forall_app in Ha. destruct Ha as [H1 H2]. split; [|exact H2].
    rewrite E2. apply Forall_app. split; [|exact Hb]. apply Forall_rev. exact H1.
  Qed.
  Lemma pieces_same ic r : re_ok r = true -> forall fuel b a cur, Forall low b -> Forall low a -> pieces_fuel U ic fuel r b a cur = pieces_fuel A ic fuel r b a cur.
  Proof.
    intros HR. induction fuel as [|f IH]; intros b a cur Hb Ha; [reflexivity|]. cbn [pieces_fuel]. rewrite match_same by assumption. destruct (match_at A ic r b a) as [st|] eqn:E.
    - destruct (match_low _ _ _ _ _ E Hb Ha) as [H1 H2]. destruct (_ <? _); [rewrite IH by assumption; reflexivity|]. destruct a as [|c a]; [reflexivity|]. inversion Ha; subst. rewrite IH by (try constructor; assumption). reflexivity.
    - destruct a as [|c a]; [reflexivity|]. inversion Ha; subst. apply IH; try constructor; assumption.
  Qed.
  Lemma sub_same ic r t s : re_ok r = true -> Forall low s -> sub U ic r t s = sub A ic r t s.
  Proof. intros HR Hs. unfold sub, pieces. rewrite pieces_same by (auto; constructor). reflexivity. Qed.
  Lemma search_same ic r s : re_ok r = true -> Forall low s -> search U ic r s = search A ic r s.
  Proof.
    intros HR Hs. unfold search. assert (G : forall a b, Forall low b -> Forall low a -> search_from U ic r b a = search_from A ic r b a); [|apply G; [constructor|exact Hs]].
    induction a as [|c a IH]; intros b Hb Ha; cbn [search_from]; rewrite match_same by assumption; [reflexivity|]. inversion Ha; subst. rewrite IH by (try constructor; assumption). reflexivity.
  Qed.
  Lemma sub_low ic r t s : nullable r = false -> temp_low t = true -> Forall low s -> Forall low (sub A ic r t s).
  Proof.
    intros HN Ht Hs. apply sub_in; [exact HN| |exact Hs]. unfold temp_low in Ht. rewrite forallb_forall in Ht. apply Forall_forall. intros i Hi. specialize (Ht i Hi). destruct i as [l|n]; [|exact I].
    rewrite forallb_forall in Ht. apply Forall_forall. intros c Hc. apply N.ltb_lt. auto.
  Qed.
  Lemma rules_same rules s : forallb rule_ok rules = true -> Forall low s -> fold_left (apply_rule U) rules s = fold_left (apply_rule A) rules s /\ Forall low (fold_left (apply_rule A) rules s).
  Proof.
    revert s. induction rules as [|ru rules IH]; intros s H Hs; [split; [reflexivity|exact Hs]|]. cbn [forallb] in H. apply andb_true_iff in H. destruct H as [H1 H2]. unfold rule_ok in H1. apply andb_true_iff in H1. destruct H1 as [H1 H3]. apply andb_true_iff in H1. destruct H1 as [H1 H4].
    apply negb_true_iff in H3. cbn [fold_left]. unfold apply_rule at 2 4 6. rewrite sub_same by assumption. apply IH; [exact H2|]. apply sub_low; assumption.
  Qed.
  Lemma split_same s : Forall low s -> split_ws (u_space U) s = split_ws (u_space A) s.
  Proof.
    unfold split_ws. generalize ([] : str). induction s as [|c s IH]; intros cur Hs; [reflexivity|]. inversion Hs; subst. cbn [split_ws_aux]. rewrite space_same by assumption. destruct (u_space A c); rewrite ?IH by assumption; reflexivity.
  Qed.
  Lemma split_low s w : Forall low s -> In w (split_ws (u_space A) s) -> Forall low w.
  Proof.
    intros Hs Hw. unfold split_ws in Hw. assert (G : forall s cur, Forall low s -> Forall low cur -> In w (split_ws_aux (u_space A) cur s) -> Forall low w); [|eapply G; [exact Hs|constructor|exact Hw]].
    clear. induction s as [|c s IH]; intros cur Hs Hc Hw; cbn [split_ws_aux] in Hw.
    - destruct cur; [destruct Hw|]. destruct Hw as [<-|[]]. apply Forall_rev. exact Hc.
    - inversion Hs; subst. destruct (u_space A c) in Hw.
      + destruct cur as [|d cur]; [eapply IH; [assumption|exact Hc|exact Hw]|]. destruct Hw as [<-|Hw]; [apply Forall_rev; exact Hc|]. eapply IH; [assumption| |exact Hw]. constructor.
      + eapply IH; [assumption| |exact Hw]. constructor; assumption.
  Qed.
  Lemma join_low ws : Forall (Forall low) ws -> Forall low (join (lit " ") ws).
  Proof.
    induction ws as [|w ws IH]; intros H; [constructor|]. inversion H; subst. destruct ws as [|v ws]; [assumption|]. change (join (lit " ") (w :: v :: ws)) with (w ++ 32%N :: join (lit " ") (v :: ws)).
    apply Forall_app. split; [assumption|]. constructor; [reflexivity|]. apply IH. assumption.
  Qed.
  Lemma lstrip_same s : Forall low s -> lstrip (u_space U) s = lstrip (u_space A) s.
  Proof. induction 1 as [|c s Hc Hs IH]; [reflexivity|]. cbn [lstrip]. rewrite space_same by exact Hc. rewrite IH. reflexivity. Qed.
  Lemma lstrip_low s : Forall low s -> Forall low (lstrip (u_space A) s).
  Proof. induction 1 as [|c s Hc Hs IH]; [constructor|]. cbn [lstrip]. destruct (u_space A c); [exact IH|constructor; assumption]. Qed.
  Lemma strip_same s : Forall low s -> strip (u_space U) s = strip (u_space A) s /\ Forall low (strip (u_space A) s).
  Proof.
    intros H. unfold strip. rewrite (lstrip_same s H). rewrite lstrip_same by (apply Forall_rev, lstrip_low, H). split; [reflexivity|]. apply Forall_rev, lstrip_low, Forall_rev, lstrip_low, H.
  Qed.
  Lemma sanitize_same rules s : forallb rule_ok rules = true -> Forall low s -> sanitize U rules s = sanitize A rules s /\ Forall low (sanitize A rules s).
  Proof.
    intros HR Hs. unfold sanitize. destruct (strip_same s Hs) as [E L]. rewrite E. destruct (rules_same rules _ HR L) as [E2 L2]. rewrite E2. rewrite split_same by exact L2. split; [reflexivity|].
    apply join_low. apply Forall_forall. intros w Hw. eapply split_low; eauto.
  Qed.
  Lemma strip_prefix_low p s r : strip_prefix p s = Some r -> Forall low s -> Forall low r.
  Proof. revert s. induction p as [|a p IH]; intros s E H; cbn in E; [injection E as <-; exact H|]. destruct s as [|b s]; [discriminate|]. inversion H; subst. destruct (N.eqb a b); [|discriminate]. eapply IH; eauto. Qed.
  Lemma replace_low old new s : Forall low new -> Forall low s -> Forall low (replace s old new).
  Proof.
    intros Hn. unfold replace. assert (G : forall n (s : str), Forall low s -> Forall low (replace_fuel n old new s)); [|apply G]. clear s. induction n as [|n IH]; intros s Hs; cbn [replace_fuel]; [exact Hs|]. destruct s as [|c s]; [constructor|].
    destruct (strip_prefix old (c :: s)) as [rest|] eqn:E; [apply Forall_app; split; [exact Hn|]; apply IH; eapply strip_prefix_low; eauto|]. inversion Hs; subst. constructor; [assumption|]. apply IH. assumption.
  Qed.
  Lemma digits_low f n acc : Forall low acc -> Forall low (dec_fuel f n acc).
  Proof.
    revert n acc. induction f as [|f IH]; intros n acc H; cbn [dec_fuel]; [exact H|].
    assert (HD : Forall low ((48 + N.of_nat (n mod 10))%N :: acc)).
    { constructor; [|exact H]. unfold low. pose proof (Nat.mod_upper_bound n 10 ltac:(lia)) as Hm. set (q := n mod 10) in *. clearbody q. lia. }
    destruct (_ =? _); [exact HD|]. apply IH. exact HD.
  Qed.
  Lemma key_low i : Forall low (protect_key i).
  Proof. unfold protect_key. rewrite !Forall_app. split; [repeat constructor|]. split; [unfold str_of_nat; apply digits_low; constructor|repeat constructor]. Qed.
  Definition prot_low (p : dict str str) : Prop := Forall (fun e => Forall low (snd e)) p.
  Lemma dset_low k v p : Forall low v -> prot_low p -> prot_low (dset str_eqb k v p).
  Proof. intros Hv. unfold prot_low. induction 1 as [|[k0 v0] p H0 Hp IH]; cbn [dset]; [constructor; [exact Hv|constructor]|]. destruct (str_eqb k k0); constructor; auto. Qed.
  Lemma loop_same r : re_ok r = true -> forall f prot i t, prot_low prot -> Forall low t ->
    protect_loop U f r prot i t = protect_loop A f r prot i t /\ forall prot' i' t', protect_loop A f r prot i t = Ok (prot', i', t') -> prot_low prot' /\ Forall low t'.
  Proof.
    intros HR. induction f as [|f IH]; intros prot i t Hp Ht; cbn [protect_loop]; rewrite search_same by assumption; destruct (search A true r t) as [[b st]|] eqn:E.
    - split; [reflexivity|discriminate].
    - split; [reflexivity|]. intros prot' i' t' Ee. injection Ee as <- _ <-. auto.
    - assert (HM : Forall low (matched b st)).
      { unfold matched. apply Forall_rev. assert (G : forall a b0 x, search_from A true r b0 a = Some x -> Forall low b0 -> Forall low a -> Forall low (bef (snd x))).
        { clear. induction a as [|c a IH]; intros b0 x E Hb Ha; cbn [search_from] in E; (destruct (match_at A true r b0 _) as [st|] eqn:Em; [injection E as <-; cbn [snd]; exact (proj1 (match_low _ _ _ _ _ Em Hb Ha))|]); [discriminate|].
          inversion Ha; subst. eapply IH; [exact E| |assumption]. constructor; assumption. }
        specialize (G t [] (b, st) E (Forall_nil _) Ht). cbn [snd] in G. rewrite <- (firstn_skipn (length (bef st) - length b) (bef st)) in G. apply Forall_app in G. apply G. }
      apply IH; [apply dset_low; assumption|]. apply replace_low; [apply key_low|exact Ht].
    - split; [reflexivity|]. intros prot' i' t' Ee. injection Ee as <- _ <-. auto.
  Qed.
  Definition pstep (V : udb) : dict str str * nat * str -> re -> res (dict str str * nat * str) := fun '(prot, index, t) p => protect_loop V (length t) p prot index t.
  Definition ptext (V : udb) (t : str) : res (dict str str * str) := let! x := foldM (pstep V) ([], 1, t) re_protect in Ok (fst (fst x), snd x).
  Lemma ptext_eq V t : protect_text V t = ptext V t.
  Proof. unfold protect_text, ptext. change (foldM _ ([], 1, t) re_protect) with (foldM (pstep V) ([], 1, t) re_protect). destruct (foldM (pstep V) ([], 1, t) re_protect) as [[[p i] t1]|e]; reflexivity. Qed.
  Lemma protect_same t : Forall low t -> protect_text U t = protect_text A t /\ forall prot t', protect_text A t = Ok (prot, t') -> prot_low prot /\ Forall low t'.
  Proof.
    intros Ht. rewrite !ptext_eq.
    assert (G : forall l (p : dict str str) (i : nat) (t : str), forallb re_ok l = true -> prot_low p -> Forall low t -> foldM (pstep U) (p, i, t) l = foldM (pstep A) (p, i, t) l /\
      forall p' i' t', foldM (pstep A) (p, i, t) l = Ok (p', i', t') -> prot_low p' /\ Forall low t').
    { clear t Ht. induction l as [|r l IH]; intros p i t HL Hp Ht; cbn [foldM]; [split; [reflexivity|]; intros p' i' t' E; injection E as <- _ <-; auto|].
      cbn [forallb] in HL. apply andb_true_iff in HL. destruct HL as [H1 H2]. destruct (loop_same r H1 (length t) p i t Hp Ht) as [E L]. change (pstep U (p, i, t) r) with (protect_loop U (length t) r p i t). change (pstep A (p, i, t) r) with (protect_loop A (length t) r p i t). rewrite E. destruct (protect_loop A (length t) r p i t) as [[[p1 i1] t1]|e]; cbn [rbind]; [|split; [reflexivity|discriminate]].
      destruct (L p1 i1 t1 eq_refl) as [L1 L2]. apply IH; assumption. }
    destruct (G re_protect [] 1 t eq_refl (Forall_nil _) Ht) as [E L]. split; [exact (f_equal (fun z => rbind z (fun x => Ok (fst (fst x), snd x))) E)|]. intros prot t'. unfold ptext. intros Ee. match type of Ee with rbind ?z _ = _ => destruct z as [[[p i] t1]|e] eqn:EF end; cbn [rbind fst snd] in Ee; [|discriminate]. injection Ee as <- <-. eapply L. exact EF.
  Qed.
  Lemma dots_same w : Forall low w -> split_dots U w = split_dots A w /\ forall v, In v (split_dots A w) -> Forall low v.
  Proof.
    intros Hw. unfold split_dots.
    assert (E : existsb (fun p => match fullmatch U true p w with Some _ => true | None => false end) re_token_nosplit_dot =
                existsb (fun p => match fullmatch A true p w with Some _ => true | None => false end) re_token_nosplit_dot).
    { assert (HR : forallb re_ok re_token_nosplit_dot = true) by reflexivity. induction re_token_nosplit_dot as [|r l IH]; [reflexivity|]. cbn [forallb existsb] in *. apply andb_true_iff in HR. destruct HR as [H1 H2]. rewrite full_same, IH by assumption. reflexivity. }
    rewrite E. clear E. match goal with |- context [existsb ?f re_token_nosplit_dot] => destruct (existsb f re_token_nosplit_dot) end; [split; [reflexivity|]; intros v [<-|[]]; exact Hw|]. destruct (rules_same re_token_split_dot w eq_refl Hw) as [E2 L2]. rewrite E2, split_same by exact L2. split; [reflexivity|]. intros v Hv. eapply split_low; eauto.
  Qed.
  Lemma ok_tk_sanitization : forallb rule_ok tk_sanitization = true.
  Proof. vm_compute. reflexivity. Qed.
  Lemma ok_re_no_split : forallb rule_ok re_no_split = true.
  Proof. vm_compute. reflexivity. Qed.
  Lemma ok_re_segment_off : forallb rule_ok re_segment_off = true.
  Proof. vm_compute. reflexivity. Qed.
  Lemma ok_re_restore : forallb rule_ok re_restore = true.
  Proof. vm_compute. reflexivity. Qed.
  Lemma ok_re_reattach : forallb rule_ok re_reattach = true.
  Proof. vm_compute. reflexivity. Qed.
  Lemma ok_always : forallb rule_ok [re_always_split] = true.
  Proof. vm_compute. reflexivity. Qed.
  Lemma always_same t : Forall low t -> apply_rule U t re_always_split = apply_rule A t re_always_split /\ Forall low (apply_rule A t re_always_split).
  Proof. intros H. exact (rules_same [re_always_split] t ok_always H). Qed.
  Theorem tokenize_ascii text : Forall low text -> tokenize U text = tokenize A text.
  Proof.
    intros Ht. unfold tokenize. destruct text as [|c0 text]; [reflexivity|]. set (s := c0 :: text) in *. clearbody s. destruct (sanitize_same tk_sanitization s ok_tk_sanitization Ht) as [E1 L1]. rewrite E1.
    destruct (protect_same _ L1) as [E2 L2]. rewrite E2. destruct (protect_text A (sanitize A tk_sanitization s)) as [[prot t]|e]; [|reflexivity]. cbn [rbind]. destruct (L2 prot t eq_refl) as [LP LT]. clear E1 L1 E2 L2.
    destruct (rules_same re_no_split t ok_re_no_split LT) as [E L]. rewrite E. set (t1 := fold_left (apply_rule A) re_no_split t) in *. clearbody t1. clear E LT t.
    destruct (always_same t1 L) as [E L2]. rewrite E. set (t2 := apply_rule A t1 re_always_split) in *. clearbody t2. clear E L t1.
    rewrite (split_same t2 L2). assert (E : flat_map (split_dots U) (split_ws (u_space A) t2) = flat_map (split_dots A) (split_ws (u_space A) t2) /\ Forall (Forall low) (flat_map (split_dots A) (split_ws (u_space A) t2))).
    { assert (HW : Forall (Forall low) (split_ws (u_space A) t2)) by (apply Forall_forall; intros w Hw; eapply split_low; eauto). induction HW as [|w ws Hw HW IH]; [split; [reflexivity|constructor]|]. cbn [flat_map]. destruct IH as [I1 I2]. destruct (dots_same w Hw) as [D1 D2]. rewrite D1, I1. split; [reflexivity|].
      apply Forall_app. split; [|exact I2]. apply Forall_forall. exact D2. }
    destruct E as [E L]. rewrite E. apply join_low in L. set (t3 := join (lit " ") (flat_map (split_dots A) (split_ws (u_space A) t2))) in *. clearbody t3. clear E L2 t2.
    destruct (rules_same re_segment_off t3 ok_re_segment_off L) as [E L2]. rewrite E. rewrite (split_same _ L2). set (t4 := fold_left (apply_rule A) re_segment_off t3) in *. clearbody t4. clear E L t3.
    assert (L : Forall low (join (lit " ") (split_ws (u_space A) t4))) by (apply join_low; apply Forall_forall; intros w Hw; eapply split_low; eauto). set (t5 := join (lit " ") (split_ws (u_space A) t4)) in *. clearbody t5. clear L2 t4.
    destruct (rules_same re_restore t5 ok_re_restore L) as [E L2]. rewrite E. set (t6 := fold_left (apply_rule A) re_restore t5) in *. clearbody t6. clear E L t5.
    destruct (rules_same re_reattach t6 ok_re_reattach L2) as [E L]. rewrite E. set (t7 := fold_left (apply_rule A) re_reattach t6) in *. clearbody t7. clear E L2 t6.
    f_equal. apply split_same. revert t7 L. induction LP as [|[k v] prot Hv HP IH]; intros t7 L; cbn [fold_left]; [exact L|]. apply IH. apply replace_low; assumption.
  Qed.
End Ascii.
