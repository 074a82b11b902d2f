(** Protection of parts of a text by placeholders, and their restoration. *)
From Coq Require Import Ascii String.
From Coq Require Import List NArith ZArith Arith Bool Lia.
From Verif Require Import PyBase Regex MTokenizer SText STok LBase LText LRegex LSub LSentencizer LRestore LTok LTokWords LDecode LGood LRule LStages.
Import ListNotations.
Local Open Scope nat_scope.

Section Protect.
  Context (U : udb) (OK : udb_ok U) (rs : list char) (RS : incl rs res_chars).
  Notation plainc := (plainc rs).
  Notation rare := (rare rs).
  Notation dec := (dec rs).
  Definition factor (w d : list dch) : Prop := exists a b, d = a ++ w ++ b.

  (** *** occurrences of a placeholder *)
  Section Occ.
    Context (env : envt) (FE : framed_env rs env) (k : str) (v : list dch) (c1 : char) (b1 b2 : str).
    Context (Ek : k = 95%N :: (c1 :: b1) ++ 95%N :: b2) (P1 : Forall plainc (c1 :: b1)).
    Context (H1 : forall a v', In (a, v') env -> forall x y, a ++ x = k ++ y -> a = k /\ v' = v).
    Context (H2 : forall a1 a2 v', In (a1 ++ 95%N :: a2, v') env -> a1 <> [] -> forall r, a2 <> c1 :: r).
    Definition apart (d : list dch) : Prop :=
      match b2 with [] => ~ factor (map C (c1 :: b1)) d | c2 :: _ => forall r v', ~ In (95%N :: c2 :: r, v') env end.
    Lemma apart_suffix a d : apart (a ++ d) -> apart d.
    Proof. unfold apart. destruct b2; [|auto]. intros H (x & y & ->). apply H. exists (a ++ x), y. rewrite <- app_assoc. reflexivity. Qed.
    Lemma occ pre post d : apart d -> dec env (pre ++ k ++ post) d -> exists d1 d2, d = d1 ++ v ++ d2 /\ dec env pre d1 /\ dec env post d2.
    Proof.
      intros HA Hd. destruct (dec_cut rs env pre (k ++ post) d Hd) as [(d1 & d2 & -> & D1 & D2)|(pre' & a1 & a2 & z' & v' & d1 & d2 & E1 & E2 & N1 & N2 & Hi & -> & D1 & D2)].
      - exists d1. inversion D2 as [E|c t d' Hc D E E'|a v' t d' Hi D E E']; subst d2.
        + rewrite Ek in E. discriminate.
        + exfalso. rewrite Ek in E. injection E as -> _. apply Hc. left. reflexivity.
        + destruct (H1 a v' Hi t post E) as [-> ->]. apply app_inv_head in E. subst t. exists d'. auto.
      - exfalso. destruct a2 as [|c a2]; [congruence|]. rewrite Ek in E2. cbn [app] in E2. injection E2 as <- E2. destruct a2 as [|c a2].
        + cbn [app] in E2. subst z'. change (c1 :: (b1 ++ 95%N :: b2) ++ post) with ((c1 :: b1 ++ 95%N :: b2) ++ post) in D2. change (c1 :: b1 ++ 95%N :: b2) with ((c1 :: b1) ++ 95%N :: b2) in D2. rewrite <- app_assoc in D2. apply dec_plain_inv in D2; [|exact FE|exact P1]. destruct D2 as (d3 & -> & D3). unfold apart in HA. destruct b2 as [|c2 b2'].
          * apply HA. exists (d1 ++ v'), d3. rewrite <- !app_assoc. reflexivity.
          * cbn [app] in D3. inversion D3 as [|c t d' Hc D E E'|a w t d' Hi2 D E E']; subst.
            -- apply Hc. left. reflexivity.
            -- destruct (FE _ _ Hi2) as (f1 & mid & f2 & -> & _). destruct mid as [|x mid].
               ++ cbn in E. injection E as -> -> _. exact (HA [] w Hi2).
               ++ cbn in E. injection E as -> -> _. exact (HA (mid ++ [f2]) w Hi2).
        + injection E2 as <- _. exact (H2 a1 (c1 :: a2) v' Hi N1 a2 eq_refl).
    Qed.
    Context (env' : envt) (HE : forall a v', In (a, v') env -> a = k \/ In (a, v') env') (vt : str) (HV : dec env' vt v).
    Lemma dec_drop t d : (forall x y, t <> x ++ k ++ y) -> dec env t d -> dec env' t d.
    Proof.
      intros Hn H. induction H as [|c t d Hc H IH|a v' t d Hi H IH]; [constructor| |].
      - constructor; [exact Hc|]. apply IH. intros x y ->. exact (Hn (c :: x) y eq_refl).
      - destruct (HE _ _ Hi) as [->|Hi']; [exfalso; exact (Hn [] t eq_refl)|]. constructor; [exact Hi'|]. apply IH. intros x y ->. apply (Hn (a ++ x) y). rewrite app_assoc. reflexivity.
    Qed.
    Lemma unreplace t t' : replaced k vt t t' -> forall d, apart d -> dec env t d -> dec env' t' d.
    Proof.
      induction 1 as [s Hn|pre y t Hp H IH]; intros d HA Hd; [apply dec_drop; assumption|]. destruct (occ pre y d HA Hd) as (d1 & d2 & -> & D1 & D2). apply dec_app; [|apply dec_app; [exact HV|]].
      - apply dec_drop; [|exact D1]. intros x z E. apply (Hp x (k ++ z) (z ++ k ++ y)); [exact E|rewrite Ek; discriminate|rewrite <- app_assoc; reflexivity].
      - apply IH; [|exact D2]. rewrite app_assoc in HA. exact (apart_suffix _ _ HA).
    Qed.
  End Occ.

  (** a rule with a literal pattern replaces the occurrences of the literal *)
  Lemma word_pure k : pure (word k) = true.
  Proof. induction k as [|c [|c2 k] IH]; [reflexivity|reflexivity|]. exact IH. Qed.
  Lemma sub_word k v s : k <> [] -> replaced k v s (sub U false (word k) [TLit v] s).
  Proof.
    intros Hk. assert (LW : forall x, lang U false (word k) x <-> x = k) .
    { intros x. split.
      - intros H. apply lang_word in H. clear -H. induction H as [|c d k x Hc H IH]; [reflexivity|]. apply (cc_exact U) in Hc. congruence.
      - intros ->. clear. induction k as [|c [|c2 k] IH]; [reflexivity|exists c; split; [reflexivity|apply (cc_exact U); reflexivity]|]. exists [c], (c2 :: k). split; [reflexivity|]. split; [exists c; split; [reflexivity|apply (cc_exact U); reflexivity]|exact IH]. }
    assert (NN : nullable (word k) = false). { destruct (nullable (word k)) eqn:E; [|reflexivity]. exfalso. clear -E Hk. destruct k as [|c k]; [congruence|]. destruct k; discriminate. }
    destruct (sub_scan U false (word k) [TLit v] s NN) as (ps & tl & Hs & ->).
    assert (MA : forall b a rest, match_at U false (word k) b a = None -> a <> k ++ rest). { intros b a rest H ->. exact (no_match_lang U false (word k) b _ (word_pure k) H k rest eq_refl (proj2 (LW k) eq_refl)). }
    clear Hk NN. remember (@nil N) as b0 in Hs. clear Heqb0. induction Hs as [b a Hn|b pre w y st ps tl Hpre Hm Hw Lw Ha Hb Hs IH].
    - unfold subst_of. cbn. apply repl_end. intros x y E. apply (MA _ (k ++ y) y (Hn x (k ++ y) E)). reflexivity.
    - apply LW in Lw. subst w. unfold subst_of in *. cbn [flat_map fst snd]. change (expand [TLit v] k st) with (v ++ []). rewrite app_nil_r, <- !app_assoc. apply repl_one; [|exact IH]. intros x z rest E Hz E2. subst pre. eapply MA; [|exact E2]. apply Hpre; [reflexivity|exact Hz].
  Qed.

  (** *** the keys of protected parts *)
  Definition key_atom (a : str) : Prop := exists n, a = protect_key n.
  Lemma key_framed n : framed rs (protect_key n).
  Proof.
    exists 95%N, (lit "PROTECTED_" ++ str_of_nat n), 95%N. split; [unfold protect_key; cbn [app lit]; rewrite <- ?app_assoc; reflexivity|]. split; [left; reflexivity|]. split; [left; reflexivity|]. apply Forall_app. split.
    - apply Forall_forall. intros c Hc. apply in_app_iff. right. cbn in Hc |- *. tauto.
    - eapply Forall_impl; [|apply str_of_nat_digits]. intros c Hc. apply in_app_iff. right. cbn beta in Hc. unfold inner_chars. assert (c = 48 \/ c = 49 \/ c = 50 \/ c = 51 \/ c = 52 \/ c = 53 \/ c = 54 \/ c = 55 \/ c = 56 \/ c = 57)%N as K by lia. cbn. intuition.
  Qed.
  Lemma key_prefix n k x y : protect_key n ++ x = protect_key k ++ y -> n = k.
  Proof.
    unfold protect_key. rewrite <- !app_assoc. intros E. apply app_inv_head in E. assert (D : forall i, ~ In 95%N (str_of_nat i)). { intros i Hi. pose proof (str_of_nat_digits i) as F. rewrite Forall_forall in F. specialize (F _ Hi). lia. }
    change (lit "_" ++ x) with (95%N :: x) in E. change (lit "_" ++ y) with (95%N :: y) in E. apply first_occ in E; [|apply D|apply D]. apply str_of_nat_inj. tauto.
  Qed.
  Lemma key_inner n a1 a2 : protect_key n = a1 ++ 95%N :: a2 -> a1 <> [] -> a2 = [] \/ exists c r, a2 = c :: r /\ (48 <= c <= 57)%N.
  Proof.
    intros E N1. destruct a1 as [|c a1]; [congruence|]. change (protect_key n) with (95%N :: (lit "PROTECTED" ++ 95%N :: str_of_nat n ++ [95%N])) in E. change ((c :: a1) ++ 95%N :: a2) with (c :: (a1 ++ 95%N :: a2)) in E. apply (f_equal (@tl N)) in E. unfold tl in E.
    assert (D : Forall (fun c => (48 <= c <= 57)%N) (str_of_nat n)) by apply str_of_nat_digits.
    assert (ND : str_of_nat n <> []) by (unfold str_of_nat; apply dec_fuel_nonempty; lia).
    revert E D ND. generalize (str_of_nat n). intros sn E D ND.
    destruct (app_eq_app _ _ _ _ E) as (l & [[E1 E2]|[E1 E2]]).
    - destruct l as [|x l].
      + cbn in E2. injection E2 as E2. subst a2. right. destruct (sn) as [|c0 s]; [congruence|]. inversion D. eexists c0, _. split; [reflexivity|assumption].
      + exfalso. injection E2 as <- _. assert (In 95%N (lit "PROTECTED")) as F by (rewrite E1, in_app_iff; right; left; reflexivity). cbn in F. intuition discriminate.
    - destruct l as [|x l]; cbn in E2.
      + injection E2 as E2. subst a2. right. destruct (sn) as [|c0 s]; [congruence|]. inversion D. eexists c0, _. split; [reflexivity|assumption].
      + injection E2 as <- E2. destruct (app_eq_app _ _ _ _ E2) as (l2 & [[E3 E4]|[E3 E4]]).
        * destruct l2 as [|y l2]; [cbn in E4; injection E4 as E4; subst a2; left; reflexivity|]. exfalso. injection E4 as <- _. rewrite Forall_forall in D. assert (In 95%N (sn)) as F by (rewrite E3, in_app_iff; right; left; reflexivity). specialize (D _ F). lia.
        * destruct l2 as [|y l2]; [cbn in E4; injection E4 as E4; subst a2; left; reflexivity|]. cbn in E4. injection E4 as _ E4. destruct l2; discriminate.
  Qed.

  Section Keys.
    Context (env0 : envt) (E0 : forall a v, In (a, v) env0 -> framed rs a /\ ~ In 95%N a).
    Definition numbered (k : nat) (prot : dict str str) : Prop := map fst prot = map protect_key (seq 1 k) /\ Forall (fun p => Forall plainc (snd p)) prot.
    Lemma framed_prot prot : Forall (fun p => key_atom (fst p)) prot -> framed_env rs (env_of prot ++ env0).
    Proof.
      intros H a v Hi. apply in_app_iff in Hi. destruct Hi as [Hi|Hi]; [|apply (E0 a v Hi)]. unfold env_of in Hi. apply in_map_iff in Hi. destruct Hi as ([a' v'] & E & Hi). injection E as <- <-. rewrite Forall_forall in H. destruct (H _ Hi) as (n & En). cbn in *. rewrite En. apply key_framed.
    Qed.
    Lemma numbered_keys k prot : numbered k prot -> Forall (fun p => key_atom (fst p)) prot.
    Proof.
      intros [H _]. apply Forall_forall. intros p Hp. assert (In (fst p) (map fst prot)) as Hi by (apply in_map; exact Hp). rewrite H in Hi. apply in_map_iff in Hi. destruct Hi as (n & <- & _). exists n. reflexivity.
    Qed.
    (** *** protection *)
    Lemma protect_one token key t t' : token <> [] -> Forall plainc token -> (exists c, In c token /\ rare c) -> forall env, framed_env rs env -> replaced token key t t' -> forall d, dec env t d -> dec ((key, map C token) :: env) t' d.
    Proof.
      intros Hn Hp Hr env FE H. induction H as [s Hs|pre y t Hs H IH]; intros d Hd; [eapply dec_mono; [|exact Hd]; intros x Hx; right; exact Hx|].
      destruct (dec_split rs env pre token y d FE Hp Hr Hd) as (d1 & d2 & -> & D1 & D2). apply dec_app; [eapply dec_mono; [|exact D1]; intros x Hx; right; exact Hx|]. apply dec_app; [apply dec_one; left; reflexivity|apply IH; exact D2].
    Qed.
    Lemma numbered_new k (prot : dict str str) (token : str) : numbered k prot -> Forall plainc token -> dset str_eqb (protect_key (S k)) token prot = prot ++ [(protect_key (S k), token)] /\ numbered (S k) (prot ++ [(protect_key (S k), token)]).
    Proof.
      intros [H1 H2] Hp. split.
      - apply (dset_new str_eqb). destruct (dget str_eqb (protect_key (S k)) prot) as [v|] eqn:E; [|reflexivity]. exfalso. assert (Hi : In (protect_key (S k)) (map fst prot)). { revert E. clear. generalize (protect_key (S k)). intros key E. induction prot as [|[a b] prot IH]; cbn [dget] in E; [discriminate|]. cbn [map In fst]. destruct (str_eqb key a) eqn:E2; [left; apply str_eqb_eq in E2; symmetry; exact E2|right; apply IH; exact E]. }
        rewrite H1 in Hi. apply in_map_iff in Hi. destruct Hi as (n & E2 & Hi). apply in_seq in Hi. assert (n = S k); [|lia]. apply (key_prefix n (S k) [] []). rewrite E2. reflexivity.
      - split; [|apply Forall_app; split; [exact H2|constructor; [exact Hp|constructor]]]. rewrite map_app, H1. change (seq 1 (S k)) with (seq 1 (S k)). rewrite seq_S, map_app. reflexivity.
    Qed.
    Lemma protect_loop_dec p : mustb rare_symbols p = true -> avoidb p = true -> forall f prot k t d prot' i' t', numbered k prot -> dec (env_of prot ++ env0) t d -> protect_loop U f p prot (S k) t = Ok (prot', i', t') ->
      exists k', i' = S k' /\ numbered k' prot' /\ dec (env_of prot' ++ env0) t' d.
    Proof.
      intros Hm Ha. induction f as [|f IH]; intros prot k t d prot' i' t' HN Hd H; cbn [protect_loop] in H; destruct (search U true p t) as [[b st]|] eqn:E; try discriminate.
      - apply ok_inj in H. injection H as <- <- <-. exists k. auto.
      - apply search_some in E. destruct E as (x & y & E & _ & L & _). pose proof (avoid_lang U OK rs RS true p _ Ha L) as Pl. destruct (must_lang U OK true rare_symbols rare_caseless p _ Hm L) as (c & Hc & Hi).
        assert (matched b st <> []) as Hne by (intros F; rewrite F in Hc; destruct Hc). destruct (numbered_new k prot (matched b st) HN Pl) as [E1 E2]. rewrite E1 in H. eapply IH; [exact E2| |exact H].
        eapply dec_mono; [|eapply (protect_one (matched b st) (protect_key (S k)) t); [exact Hne|exact Pl|exists c; split; [exact Hc|apply (rare_sym rs RS); exact Hi]|apply framed_prot; eapply numbered_keys; exact HN|apply replace_replaced; exact Hne|exact Hd]].
        intros z Hz. unfold env_of. rewrite map_app, <- app_assoc. destruct Hz as [<-|Hz]; rewrite !in_app_iff; [right; left; left; reflexivity|]. apply in_app_iff in Hz. unfold env_of in Hz. tauto.
      - apply ok_inj in H. injection H as <- <- <-. exists k. auto.
    Qed.
    Lemma protect_loop_none p f prot k t : search U true p t = None -> protect_loop U f p prot k t = Ok (prot, k, t).
    Proof. intros H. destruct f; cbn [protect_loop]; rewrite H; reflexivity. Qed.

    (** no address in the text *)
    Definition is_w (c : char) : Prop := In 119%N (u_variants U c).
    Definition nowww (d : list dch) : Prop := forall x y z, is_w x -> is_w y -> is_w z -> ~ factor (map C [x; y; z; 46%N]) d.
    Lemma w_plain c : is_w c -> plainc c.
    Proof.
      intros Hc [<-|Hi].
      - destruct (ok_var_letter _ OK 95%N 119%N ltac:(lia) Hc ltac:(lia)) as [E|E]; discriminate E.
      - apply RS in Hi. assert (In c code_symbols) as Hs by (cbn in Hi |- *; tauto). pose proof (ok_symbols _ OK c 119%N Hs (or_introl Hc)) as E. subst c. cbn in Hi. intuition discriminate.
    Qed.
    Lemma rare_46 : rare 46%N.
    Proof. apply (rare_sym rs RS). cbn. auto. Qed.
    Lemma rare_47 : rare 47%N.
    Proof. apply (rare_sym rs RS). cbn. tauto. Qed.
    Lemma no_slash env t d : framed_env rs env -> dec env t d -> ~ In (C 47%N) d -> ~ In 47%N t.
    Proof.
      intros FE Hd Hn Hi. apply in_split in Hi. destruct Hi as (a & b & ->). change (47%N :: b) with ([47%N] ++ b) in Hd. apply dec_split in Hd; [|exact FE|constructor; [|constructor]|exists 47%N; split; [left; reflexivity|exact rare_47]].
      - destruct Hd as (d1 & d2 & -> & _). apply Hn. apply in_app_iff. right. left. reflexivity.
      - intros F. apply rare_47. apply in_app_iff. left. exact F.
    Qed.
    Lemma w_www x : lang U true (w "www.") x -> exists a b c, x = [a; b; c; 46%N] /\ is_w a /\ is_w b /\ is_w c.
    Proof.
      intros H. assert (CH : forall c d, cset_match U true (cc c) d = true -> In c (u_variants U d)).
      { intros c d Hd. unfold cset_match, cc, cls in Hd. cbn [cs_neg cs_items existsb] in Hd. rewrite xorb_false_l, orb_false_r in Hd. cbn [citem_match] in Hd. apply existsb_exists in Hd. destruct Hd as (e & He & E). apply andb_true_iff in E. rewrite !N.leb_le in E. assert (e = c) by lia. subst e. exact He. }
      unfold w in H. apply lang_word in H. change (lit "www.") with [119; 119; 119; 46]%N in H.
      inversion H as [|? a ? ? Ha H1]; subst. inversion H1 as [|? b ? ? Hb H2]; subst. inversion H2 as [|? c ? ? Hc H3]; subst. inversion H3 as [|? e ? ? He H4]; subst. inversion H4; subst. apply CH in Ha, Hb, Hc, He.
      destruct (ok_var_ascii _ OK e 46%N He ltac:(lia)) as [E|E]; [subst e|discriminate E]. exists a, b, c. auto.
    Qed.
    Definition www_pat : re := nth 2 re_protect Eps.
    Lemma www_none env t d : framed_env rs env -> dec env t d -> ~ In (C 47%N) d -> nowww d -> search U true www_pat t = None.
    Proof.
      intros FE Hd Hn Hw. apply search_none. intros x y ->. match goal with |- ?m = None => destruct m as [st|] eqn:E end; [|reflexivity]. exfalso.
      pose proof (no_slash env _ d FE Hd Hn) as NS. apply match_at_some in E. apply mrel_lang in E. destruct E as (u & E1 & _ & L). cbn [aft] in E1. subst y.
      change www_pat with (Seq (Grp 1 (Alt (seqs [w "http"; opt (ch 115); w "://"]) (w "www."))) (seqs [plus not_sp_dot; plus (Grp 2 (Seq dot (plus not_sp_dot))); star (Grp 3 (Seq (ch 47) (star not_sp)))])) in L.
      destruct L as (u1 & u2 & -> & L1 & _). destruct L1 as [L1|L1].
      - destruct (must_lang U OK true [47%N] eq_refl (seqs [w "http"; opt (ch 115); w "://"]) u1 eq_refl L1) as (c & Hc & [<-|[]]). apply NS. rewrite !in_app_iff. auto.
      - apply w_www in L1. destruct L1 as (a & b & c & -> & Ha & Hb & Hc). rewrite <- app_assoc in Hd. apply dec_split in Hd; [|exact FE| |exists 46%N; split; [cbn; auto|exact rare_46]].
        + destruct Hd as (d1 & d2 & -> & _). apply (Hw a b c Ha Hb Hc). exists d1, d2. reflexivity.
        + repeat constructor; try (apply w_plain; assumption). intros F. apply rare_46. apply in_app_iff. left. exact F.
    Qed.
    Lemma protect_text_dec t d : dec env0 t d -> ~ In (C 47%N) d -> nowww d -> exists k prot t', protect_text U t = Ok (prot, t') /\ numbered k prot /\ dec (env_of prot ++ env0) t' d.
    Proof.
      intros Hd Hn Hw. destruct (protect_text_ok U OK t) as [[prot t'] E]. rewrite E. exists (length prot), prot, t'.
      assert (K : exists k, numbered k prot /\ dec (env_of prot ++ env0) t' d).
      2: { destruct K as (k & N & D). split; [reflexivity|]. assert (length prot = k) as -> by (destruct N as [N _]; apply (f_equal (@length _)) in N; rewrite !map_length, seq_length in N; exact N). auto. }
      unfold protect_text in E. change re_protect with [nth 0 re_protect Eps; nth 1 re_protect Eps; www_pat; nth 3 re_protect Eps; nth 4 re_protect Eps] in E. cbn [foldM] in E.
      set (p0 := nth 0 re_protect Eps) in *. set (p1 := nth 1 re_protect Eps) in *. set (p3 := nth 3 re_protect Eps) in *. set (p4 := nth 4 re_protect Eps) in *.
      assert (N0 : numbered 0 []) by (split; [reflexivity|constructor]).
      destruct (protect_loop U (length t) p0 [] 1 t) as [[[q1 i1] t1]|] eqn:L1; [|discriminate]. cbn [rbind] in E.
      destruct (protect_loop_dec p0 eq_refl eq_refl _ _ _ _ d _ _ _ N0 Hd L1) as (k1 & -> & N1 & D1).
      destruct (protect_loop U (length t1) p1 q1 (S k1) t1) as [[[q2 i2] t2]|] eqn:L2; [|discriminate]. cbn [rbind] in E.
      destruct (protect_loop_dec p1 eq_refl eq_refl _ _ _ _ d _ _ _ N1 D1 L2) as (k2 & -> & N2 & D2).
      assert (FE2 : framed_env rs (env_of q2 ++ env0)) by (apply framed_prot; eapply numbered_keys; exact N2).
      rewrite (protect_loop_none www_pat) in E by (eapply www_none; eauto). cbn [rbind] in E.
      assert (S3 : search U true p3 t2 = None). { apply search_none. intros x y ->. apply (no_must_match U OK true [47%N] p3 _ y eq_refl eq_refl). intros c Hc [<-|[]]. apply (no_slash _ _ d FE2 D2 Hn). apply in_app_iff. auto. }
      rewrite (protect_loop_none p3) in E by exact S3. cbn [rbind] in E.
      destruct (protect_loop U (length t2) p4 q2 (S k2) t2) as [[[q5 i5] t5]|] eqn:L5; [|discriminate]. cbn [rbind] in E.
      destruct (protect_loop_dec p4 eq_refl eq_refl _ _ _ _ d _ _ _ N2 D2 L5) as (k5 & -> & N5 & D5). apply ok_inj in E. injection E as <- <-. exists k5. auto.
    Qed.

    (** *** restoration of the protected parts *)
    Lemma restore_keys prot : Forall (fun p => key_atom (fst p)) prot -> NoDup (map fst prot) -> Forall (fun p => Forall plainc (snd p)) prot ->
      forall t d, dec (env_of prot ++ env0) t d -> dec env0 (fold_left (fun t '(key, value) => replace t key value) prot t) d.
    Proof.
      intros HK HD HP. induction prot as [|[k v] prot IH]; intros t d Hd; [exact Hd|]. cbn [fold_left]. inversion HK as [|? ? (n & En) HK']; subst. inversion HD as [|? ? Hni HD']; subst. inversion HP as [|? ? Pv HP']; subst. cbn in En, Pv. cbn [map fst] in Hni. subst k. apply (IH HK' HD' HP').
      pose proof (str_of_nat_digits n) as Dg. assert (ND : str_of_nat n <> []) by (unfold str_of_nat; apply dec_fuel_nonempty; lia). destruct (str_of_nat n) as [|c2 ds] eqn:Es; [congruence|]. inversion Dg as [|? ? D2 _]; subst.
      assert (CASES : forall a v', In (a, v') (env_of ((protect_key n, v) :: prot) ++ env0) -> (a = protect_key n /\ v' = map C v) \/ (exists k, a = protect_key k /\ k <> n) \/ (framed rs a /\ ~ In 95%N a)).
      { intros a v' Hi. apply in_app_iff in Hi. destruct Hi as [Hi|Hi]; [|right; right; exact (E0 _ _ Hi)]. cbn in Hi. destruct Hi as [Hi|Hi]; [injection Hi as <- <-; auto|]. unfold env_of in Hi. apply in_map_iff in Hi. destruct Hi as ([a' x] & E & Hi). injection E as <- <-. rewrite Forall_forall in HK'. destruct (HK' _ Hi) as (k & Ek). cbn in Ek |- *. subst a'. right. left. exists k. split; [reflexivity|]. intros ->. apply Hni. apply in_map_iff. exists (protect_key n, x). auto. }
      apply (unreplace (env_of ((protect_key n, v) :: prot) ++ env0) (framed_prot _ HK) (protect_key n) (map C v) 80%N (lit "ROTECTED") ((c2 :: ds) ++ [95%N])) with (vt := v) (t := t).
      - unfold protect_key. rewrite Es. reflexivity.
      - apply (ok_lit_plain rs RS). reflexivity.
      - intros a v' Hi x y E. destruct (CASES a v' Hi) as [[-> ->]|[(k & -> & Hk)|[Fa Ha]]]; [auto|exfalso; apply Hk; eapply key_prefix; exact E|]. exfalso. destruct Fa as (f1 & mid & f2 & -> & _). apply Ha. cbn in E. injection E as -> _. left. reflexivity.
      - intros a1 a2 v' Hi N1 r ->. destruct (CASES _ _ Hi) as [[E _]|[(k & E & _)|[_ Ha]]]; [| |apply Ha; apply in_app_iff; right; left; reflexivity];
          symmetry in E; (apply key_inner in E; [|exact N1]); (destruct E as [E|(c & r' & E & Hc)]; [discriminate|injection E as <- _; lia]).
      - intros a v' Hi. apply in_app_iff in Hi. destruct Hi as [Hi|Hi]; [|right; apply in_app_iff; auto]. destruct Hi as [Hi|Hi]; [injection Hi as <- _; auto|right; apply in_app_iff; auto].
      - apply dec_plain. exact Pv.
      - apply replace_replaced. unfold protect_key. discriminate.
      - unfold apart. cbn [app]. intros r v' Hi. destruct (CASES _ _ Hi) as [[E _]|[(k & E & _)|[_ Ha]]]; [unfold protect_key in E; cbn in E; injection E as -> _; lia|unfold protect_key in E; cbn in E; injection E as -> _; lia|apply Ha; left; reflexivity].
      - exact Hd.
    Qed.
  End Keys.
End Protect.
