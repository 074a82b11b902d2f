(** Checks of a rewriting rule that show what it keeps of a text. *)
From Coq Require Import Ascii String.
From Coq Require Import List NArith ZArith Arith Bool Lia.
From Verif Require Import PyBase Regex MTokenizer SText STok LBase LText LRegex LSub LSentencizer LRestore LTok LTokWords LDecode LGood.
Import ListNotations.
Local Open Scope nat_scope.

(** characters at least one of which is in a match *)
Definition rare_symbols : list char :=
  [39;46;58;59;47;40;41;62;60;61;33;63;8230;34;124;92;123;125;91;93;8211;8212;42;43;38;37;44;45;8216;8217;8242;8220;8221;8243]%N.
Lemma rare_caseless : forallb caseless rare_symbols = true.
Proof. vm_compute. reflexivity. Qed.
Lemma rare_in c : In c rare_symbols -> In c symbols /\ existsb (N.eqb c) (95%N :: res_chars ++ inner_chars) = false.
Proof.
  assert (F : forallb (fun c => existsb (N.eqb c) symbols && negb (existsb (N.eqb c) (95%N :: res_chars ++ inner_chars))) rare_symbols = true) by (vm_compute; reflexivity).
  intros H. rewrite forallb_forall in F. specialize (F c H). apply andb_true_iff in F. destruct F as [F1 F2]. apply mem_in in F1. apply negb_true_iff in F2. auto.
Qed.

(** *** the first and the last character of a match is not whitespace *)
Definition ns_item (i : citem) : bool :=
  match i with
  | CRange lo hi => ((33 <=? lo)%N && (hi <? 127)%N) || (N.eqb lo hi && existsb (N.eqb lo) code_symbols)
  | CDigit | CWord => true
  | CSpace => false
  end.
Definition ns_cset (cs : cset) : bool := negb (cs_neg cs) && forallb ns_item (cs_items cs).
Fixpoint nsfirst (r : re) : bool :=
  match r with
  | Chr cs => ns_cset cs
  | Seq a b => nsfirst a && (negb (nullable a) || nsfirst b)
  | Alt a b => nsfirst a && nsfirst b
  | Star _ a | Grp _ a => nsfirst a
  | _ => true
  end.
Fixpoint nslast (r : re) : bool :=
  match r with
  | Chr cs => ns_cset cs
  | Seq a b => nslast b && (negb (nullable b) || nslast a)
  | Alt a b => nslast a && nslast b
  | Star _ a | Grp _ a => nslast a
  | _ => true
  end.
(** *** matches without the letters of placeholders *)
Definition nb_item (i : citem) : bool :=
  match i with
  | CRange lo hi => N.eqb lo hi && caseless lo && negb (existsb (N.eqb lo) body_chars)
  | CDigit | CSpace => true
  | CWord => false
  end.
Fixpoint nobody (r : re) : bool :=
  match r with
  | Chr cs => negb (cs_neg cs) && forallb nb_item (cs_items cs)
  | Seq a b | Alt a b => nobody a && nobody b
  | Star _ a | Grp _ a => nobody a
  | _ => true
  end.
(** *** templates *)
Definition ok_lit (s : str) : bool := forallb (fun c => negb (existsb (N.eqb c) (95%N :: res_chars))) s.
Definition tsyms (t : template) : list sym :=
  flat_map (fun i => match i with TLit s => map SL (filter (fun c => negb (N.eqb c 32)) s) | TGrp n => [SG n] end) t.
Definition csyms (l : list sym) : list sym := filter (fun s => match s with SL c => negb (N.eqb c 32) | SG _ => true | SW => false end) l.
Definition sym_eqb (a b : sym) : bool := match a, b with SL c, SL d => N.eqb c d | SG n, SG k => Nat.eqb n k | SW, SW => true | _, _ => false end.
Fixpoint syms_eqb (a b : list sym) : bool := match a, b with [], [] => true | x :: a', y :: b' => sym_eqb x y && syms_eqb a' b' | _, _ => false end.
Definition space_first (t : template) : bool := match t with TLit (c :: _) :: _ => N.eqb c 32 | _ => false end.
Definition space_last (t : template) : bool := match rev t with TLit s :: _ => match rev s with c :: _ => N.eqb c 32 | [] => false end | _ => false end.
(** a template and what its placeholders stand for *)
Fixpoint tdecb (senv : list (str * str)) (t t' : template) : bool :=
  match t, t' with
  | [], [] => true
  | TLit a :: t1, TLit b :: t2 => ((str_eqb a b && ok_lit a) || existsb (fun p => str_eqb (fst p) a && str_eqb (snd p) b) senv) && tdecb senv t1 t2
  | TGrp n :: t1, TGrp k :: t2 => Nat.eqb n k && tdecb senv t1 t2
  | _, _ => false
  end.
Definition lits_ok (t : template) : bool := forallb (fun i => match i with TLit s => negb (existsb (N.eqb 95) s) | TGrp _ => true end) t.
Definition bounds_ok (r : re) (t : template) : bool := (space_first t || nsfirst r) && (space_last t || nslast r).
Definition whole_only (t : template) : bool := match tsyms t with [SG 0] => true | _ => false end.
Definition tgroups (t : template) : list nat := flat_map (fun i => match i with TGrp (S n) => [S n] | _ => [] end) t.
Definition groups_ok (r : re) (t : template) : bool :=
  match tgroups t with
  | [] => true
  | ns => match comp r with Some l => forallb (fun n => existsb (sym_eqb (SG n)) l) ns | None => false end
  end.
Definition base_ok (senv : list (str * str)) (ru : rule) (t' : template) : bool :=
  negb (nullable (r_pat ru)) && avoidb (r_pat ru) && tdecb senv (r_rep ru) t' && lits_ok t' && bounds_ok (r_pat ru) t' && groups_ok (r_pat ru) t'.
(** the content of the match is kept *)
Definition same_ok (ru : rule) (t' : template) : bool :=
  (whole_only t' || match comp (r_pat ru) with Some l => syms_eqb (csyms l) (tsyms t') && negb (existsb (sym_eqb (SG 0)) l) | None => false end).
(** the match is kept as it is *)
Definition exact_ok (ru : rule) (t' : template) : bool :=
  match comp (r_pat ru) with
  | Some l => syms_eqb l (flat_map (fun i => match i with TLit s => map SL s | TGrp n => [SG n] end) t') && negb (existsb (sym_eqb (SG 0)) l) && negb (existsb (sym_eqb SW) l)
  | None => false
  end.
(** the match and its replacement have no letter of a placeholder *)
Definition any_ok (ru : rule) (t' : template) : bool :=
  nobody (r_pat ru) && forallb (fun i => match i with TLit s => forallb (fun c => negb (existsb (N.eqb c) body_chars)) s | TGrp _ => true end) t'
  && existsb (fun i => match i with TLit s => existsb (fun c => negb (N.eqb c 32) && (33 <=? c)%N && (c <? 127)%N) s | TGrp _ => false end) t'.

Section Rule.
  Context (U : udb) (OK : udb_ok U) (rs : list char) (RS : incl rs res_chars).
  Notation plainc := (plainc rs).
  Notation rare := (rare rs).
  Notation dec := (dec rs).

  Lemma printable_space c : (33 <= c)%N -> (c < 127)%N -> u_space U c = false.
  Proof. intros H1 H2. rewrite (ok_space _ OK) by lia. unfold ascii_space. repeat match goal with |- context [(?a <=? ?b)%N] => destruct (N.leb_spec a b) | |- context [(?a =? ?b)%N] => destruct (N.eqb_spec a b) end; cbn; try reflexivity; lia. Qed.
  Lemma ns_cset_ok ic cs c : ns_cset cs = true -> cset_match U ic cs c = true -> u_space U c = false.
  Proof.
    unfold ns_cset. intros H Hm. apply andb_true_iff in H. destruct H as [Hn H]. apply negb_true_iff in Hn. unfold cset_match in Hm. rewrite Hn, xorb_false_l in Hm. apply existsb_exists in Hm. destruct Hm as (i & Hi & Hm). rewrite forallb_forall in H. specialize (H i Hi).
    destruct i as [lo hi| | |]; cbn [ns_item citem_match] in *; try discriminate.
    - apply existsb_exists in Hm. destruct Hm as (e & He & E). apply andb_true_iff in E. rewrite !N.leb_le in E.
      assert (Es : u_space U e = u_space U c) by (destruct ic; [apply (ok_var_space _ OK c e He)|destruct He as [->|[]]; reflexivity]). rewrite <- Es.
      apply orb_true_iff in H. destruct H as [H|H]; apply andb_true_iff in H; destruct H as [H1 H2].
      + apply N.leb_le in H1. apply N.ltb_lt in H2. apply printable_space; lia.
      + apply N.eqb_eq in H1. subst hi. assert (e = lo) by lia. subst e. apply (ok_symbols_space _ OK). apply mem_in. exact H2.
    - destruct (u_space U c) eqn:E; [|reflexivity]. apply (ok_space_word _ OK) in E. apply (ok_digit_word _ OK) in Hm. congruence.
    - destruct (u_space U c) eqn:E; [|reflexivity]. apply (ok_space_word _ OK) in E. congruence.
  Qed.
  Lemma nsfirst_lang ic r : forall x, nsfirst r = true -> lang U ic r x -> forall c y, x = c :: y -> u_space U c = false.
  Proof.
    induction r as [|cs|a IHa b IHb|a IHa b IHb|g0 r IH|n r IH|pos r IH|pos cl|pos| |]; intros x Ha H c y E; cbn [nsfirst lang] in *; try (subst x; discriminate).
    - destruct H as (d & -> & Hd). injection E as -> _. eapply ns_cset_ok; eauto.
    - apply andb_true_iff in Ha. destruct Ha as [A1 A2]. destruct H as (u & v & -> & Hu & Hv). destruct u as [|c' u].
      + assert (nullable a = true) as Na by (destruct (nullable a) eqn:Na; [reflexivity|exfalso; exact (nullable_lang U ic a Na Hu)]). rewrite Na in A2. cbn in E. eapply IHb; eauto.
      + injection E as -> _. eapply IHa; eauto.
    - apply andb_true_iff in Ha. destruct Ha as [A1 A2]. destruct H; eauto.
    - destruct H as (l & -> & Hl). induction Hl as [|u l Hu Hl IHl]; [discriminate|]. cbn in E. destruct u as [|c' u]; [apply IHl; exact E|]. injection E as -> _. eapply IH; eauto.
    - eauto.
  Qed.
  Lemma nslast_lang ic r : forall x, nslast r = true -> lang U ic r x -> forall c y, x = y ++ [c] -> u_space U c = false.
  Proof.
    induction r as [|cs|a IHa b IHb|a IHa b IHb|g0 r IH|n r IH|pos r IH|pos cl|pos| |]; intros x Ha H c y E; cbn [nslast lang] in *; try (subst x; destruct y; discriminate).
    - destruct H as (d & -> & Hd). destruct y as [|z [|]]; try discriminate. injection E as ->. eapply ns_cset_ok; eauto.
    - apply andb_true_iff in Ha. destruct Ha as [A1 A2]. destruct H as (u & v & -> & Hu & Hv). destruct v as [|c' v _] using rev_ind.
      + assert (nullable b = true) as Nb by (destruct (nullable b) eqn:Nb; [reflexivity|exfalso; exact (nullable_lang U ic b Nb Hv)]). rewrite Nb in A2. rewrite app_nil_r in E. eapply IHa; eauto.
      + rewrite app_assoc in E. apply app_inj_tail in E. destruct E as [_ ->]. eapply IHb; eauto.
    - apply andb_true_iff in Ha. destruct Ha as [A1 A2]. destruct H; eauto.
    - destruct H as (l & -> & Hl). revert c y E. induction l as [|u l IHl] using rev_ind; intros c y E; [destruct y; discriminate|]. apply Forall_app in Hl. destruct Hl as [Hl Hu]. inversion Hu; subst. rewrite concat_app in E. cbn in E. rewrite app_nil_r in E. destruct u as [|c' u _] using rev_ind; [rewrite app_nil_r in E; eapply IHl; eauto|]. rewrite app_assoc in E. apply app_inj_tail in E. destruct E as [_ ->]. eapply IH; eauto.
    - eauto.
  Qed.
  Lemma nobody_lang ic r : forall x, nobody r = true -> lang U ic r x -> Forall (fun c => ~ In c body_chars) x.
  Proof.
    induction r as [|cs|a IHa b IHb|a IHa b IHb|g0 r IH|n r IH|pos r IH|pos cl|pos| |]; intros x Ha H; cbn [nobody lang] in *; try (subst x; constructor).
    - destruct H as (d & -> & Hd). constructor; [|constructor]. apply andb_true_iff in Ha. destruct Ha as [Hn Ha]. apply negb_true_iff in Hn. unfold cset_match in Hd. rewrite Hn, xorb_false_l in Hd. apply existsb_exists in Hd. destruct Hd as (i & Hi & Hm). rewrite forallb_forall in Ha. specialize (Ha i Hi).
      intros Hb. assert (F : forallb (fun c => (c <? 128)%N && negb (is_digit c) && negb (ascii_space c)) body_chars = true) by reflexivity. rewrite forallb_forall in F. specialize (F d Hb). apply andb_true_iff in F. destruct F as [F F3]. apply andb_true_iff in F. destruct F as [F1 F2]. apply N.ltb_lt in F1. apply negb_true_iff in F2, F3.
      destruct i as [lo hi| | |]; cbn [nb_item] in Ha; try discriminate.
      + apply andb_true_iff in Ha. destruct Ha as [Ha A3]. apply andb_true_iff in Ha. destruct Ha as [A1 A2]. apply N.eqb_eq in A1. subst hi. apply (caseless_range U OK) in Hm; [|exact A2]. subst d. apply negb_true_iff in A3. apply mem_in in Hb. congruence.
      + cbn in Hm. rewrite (ok_space _ OK) in Hm by exact F1. congruence.
      + cbn in Hm. rewrite (ok_digit _ OK) in Hm by exact F1. congruence.
    - apply andb_true_iff in Ha. destruct Ha as [A1 A2]. destruct H as (y & z & -> & Hy & Hz). apply Forall_app. auto.
    - apply andb_true_iff in Ha. destruct Ha as [A1 A2]. destruct H; auto.
    - destruct H as (l & -> & Hl). induction Hl as [|y l Hy Hl IHl]; cbn; [constructor|]. apply Forall_app. auto.
    - auto.
  Qed.
  Lemma ok_lit_plain s : ok_lit s = true -> Forall plainc s.
  Proof.
    unfold ok_lit. intros H. rewrite forallb_forall in H. apply Forall_forall. intros c Hc Hf. specialize (H c Hc). apply negb_true_iff in H. assert (existsb (N.eqb c) (95%N :: res_chars) = true); [|congruence]. apply mem_in. destruct Hf as [<-|Hf]; [left; reflexivity|right; apply RS; exact Hf].
  Qed.
  Lemma rare_sym c : In c rare_symbols -> rare c.
  Proof.
    intros H Hc. apply rare_in in H. destruct H as [_ H]. assert (existsb (N.eqb c) (95%N :: res_chars ++ inner_chars) = true); [|congruence]. apply mem_in. destruct Hc as [<-|Hc]; [left; reflexivity|right]. rewrite in_app_iff in *. destruct Hc; auto.
  Qed.

  (** what a text and the template of a rule stand for *)
  Definition env_of (senv : list (str * str)) : envt := map (fun p => (fst p, map C (snd p))) senv.
  Lemma tdec_dec senv env w st : incl (env_of senv) env -> Forall plainc w -> forall t t', tdecb senv t t' = true -> (forall n, In n (tgroups t') -> Forall plainc (Regex.group st n)) ->
    dec env (expand t w st) (map C (expand t' w st)).
  Proof.
    intros Hi Hw. induction t as [|i t IH]; intros t' H Hg.
    - destruct t'; [constructor|discriminate].
    - destruct i as [a|n]; destruct t' as [|[b|k] t']; try discriminate; cbn [tdecb] in H; apply andb_true_iff in H; destruct H as [H1 H2].
      + unfold expand in *. cbn [flat_map]. rewrite map_app. apply dec_app; [|apply (IH _ H2); exact Hg]. apply orb_true_iff in H1. destruct H1 as [H1|H1].
        * apply andb_true_iff in H1. destruct H1 as [H0 H1]. apply (proj1 (str_eqb_eq _ _)) in H0. subst b. apply dec_plain. apply ok_lit_plain. exact H1.
        * apply existsb_exists in H1. destruct H1 as ([x y] & Hx & E). cbn in E. apply andb_true_iff in E. destruct E as [E1 E2]. apply (proj1 (str_eqb_eq _ _)) in E1. apply (proj1 (str_eqb_eq _ _)) in E2. subst x y. apply dec_one. apply Hi. unfold env_of. apply in_map_iff. exists (a, b). auto.
      + apply Nat.eqb_eq in H1. subst k. unfold expand in *. cbn [flat_map]. rewrite map_app. apply dec_app.
        * destruct n; apply dec_plain; [exact Hw|]. apply Hg. unfold tgroups. cbn [flat_map]. left. reflexivity.
        * apply (IH _ H2). intros n0 Hn0. apply Hg. unfold tgroups. cbn [flat_map]. rewrite in_app_iff. right. exact Hn0.
  Qed.
  Lemma syms_eqb_eq a : forall b, syms_eqb a b = true -> a = b.
  Proof.
    induction a as [|x a IH]; intros [|y b] H; try discriminate; [reflexivity|]. cbn in H. apply andb_true_iff in H. destruct H as [H1 H2]. f_equal; [|auto]. destruct x, y; cbn in H1; try discriminate; [apply N.eqb_eq in H1|apply Nat.eqb_eq in H1|]; congruence.
  Qed.
  (** the content of symbols *)
  Definition sym_text (st : mst) (w : str) (s : sym) : str := match s with SL c => [c] | SG O => w | SG n => Regex.group st n | SW => [] end.
  Notation ns := (fun s => filter (fun c => negb (u_space U c)) s).
  Lemma ns_app a b : ns (a ++ b) = ns a ++ ns b.
  Proof. apply filter_app. Qed.
  Lemma ns_lit s : ns (flat_map (fun c => [c]) (filter (fun c => negb (N.eqb c 32)) s)) = ns s.
  Proof. induction s as [|c s IH]; [reflexivity|]. cbn. destruct (N.eqb_spec c 32); cbn; [subst; rewrite (space32 U OK); exact IH|]. destruct (u_space U c); cbn; congruence. Qed.
  Lemma flat_map_map {A B D} (f : A -> B) (h : B -> list D) l : flat_map h (map f l) = flat_map (fun x => h (f x)) l.
  Proof. induction l; cbn; congruence. Qed.
  Lemma ns_expand t w st : ns (expand t w st) = ns (flat_map (sym_text st w) (tsyms t)).
  Proof.
    induction t as [|i t IH]; [reflexivity|]. unfold expand, tsyms in *. cbn [flat_map]. rewrite flat_map_app, !ns_app, IH. f_equal. destruct i as [s|n].
    - rewrite flat_map_map. cbn [sym_text]. symmetry. apply ns_lit.
    - cbn. rewrite app_nil_r. destruct n; reflexivity.
  Qed.
  Lemma ns_comp st w xs l : Forall2 (sym_is U st) xs l -> existsb (sym_eqb (SG 0)) l = false -> ns (concat xs) = ns (flat_map (sym_text st w) (csyms l)).
  Proof.
    induction 1 as [|x s xs l Hx H IH]; intros Hz; [reflexivity|]. cbn [existsb] in Hz. apply orb_false_iff in Hz. destruct Hz as [Hz1 Hz2]. specialize (IH Hz2). cbn [concat]. rewrite ns_app, IH. unfold csyms. cbn [filter]. destruct s as [c|n|]; cbn [sym_is] in Hx.
    - subst x. destruct (N.eqb_spec c 32); cbn [negb].
      + subst c. cbn. rewrite (space32 U OK). reflexivity.
      + cbn [flat_map]. rewrite ns_app. reflexivity.
    - subst x. cbn [flat_map]. rewrite ns_app. destruct n; [discriminate|reflexivity].
    - assert (ns x = []) as ->; [|reflexivity]. clear -Hx. induction Hx as [|c x Hc Hx IH]; [reflexivity|]. cbn. rewrite Hc. exact IH.
  Qed.

  Section Apply.
    Context (senv : list (str * str)) (env : envt) (FE : framed_env rs env) (HI : incl (env_of senv) env).
    Context (ru : rule) (t' : template) (HB : base_ok senv ru t' = true) (HRr : forall x, lang U (r_ic ru) (r_pat ru) x -> exists c, In c x /\ rare c /\ u_space U c = false).

    Lemma match_groups b w y st : match_at U (r_ic ru) (r_pat ru) b (w ++ y) = Some st -> aft st = y -> bef st = rev w ++ b ->
      forall n, In n (tgroups t') -> forall c, In c (Regex.group st n) -> In c w.
    Proof.
      unfold base_ok in HB. repeat rewrite andb_true_iff in HB. destruct HB as [_ HG]. intros Hm Ha Hb n Hn c Hc. unfold groups_ok in HG. destruct (tgroups t') as [|n0 l0] eqn:Eg; [destruct Hn|]. destruct (comp (r_pat ru)) as [l|] eqn:El; [|discriminate].
      rewrite forallb_forall in HG. specialize (HG n Hn). apply existsb_exists in HG. destruct HG as (s & Hs & Es). destruct s as [c0|k|]; try discriminate. cbn in Es. apply Nat.eqb_eq in Es. subst k.
      apply match_at_some in Hm. destruct (comp_spec U OK (r_ic ru) (r_pat ru) l _ _ w El Hm) as (xs & -> & F); [cbn; rewrite Ha; reflexivity|cbn; exact Hb|].
      assert (K : exists x, In x xs /\ x = Regex.group st n).
      { clear -F Hs. induction F as [|x s xs l Hx F IH]; [destruct Hs|]. destruct Hs as [->|Hs]; [exists x; split; [left; reflexivity|exact Hx]|]. destruct (IH Hs) as (x0 & H0 & E0). exists x0. split; [right; exact H0|exact E0]. }
      destruct K as (x & Hx & ->). apply in_concat. exists (Regex.group st n). auto.
    Qed.
    Lemma rb_match b w y st : match_at U (r_ic ru) (r_pat ru) b (w ++ y) = Some st -> aft st = y -> bef st = rev w ++ b -> Forall plainc w -> lang U (r_ic ru) (r_pat ru) w ->
      expand t' w st <> [] -> rb U (map C w) (map C (expand t' w st)).
    Proof.
      intros Hm Ha Hb Pw Lw Hne. pose proof (match_groups b w y st Hm Ha Hb) as HG. unfold base_ok in HB. repeat rewrite andb_true_iff in HB. destruct HB as [[[[[B1 B2] B3] B4] B5] _].
      assert (P95 : forall c, In c w -> c <> 95%N). { intros c Hc ->. rewrite Forall_forall in Pw. apply (Pw _ Hc). left. reflexivity. }
      unfold bounds_ok in B5. apply andb_true_iff in B5. destruct B5 as [B5 B6]. constructor.
      - unfold only_chars. apply Forall_map, Forall_forall. intros c Hc. eauto.
      - unfold only_chars. apply Forall_map, Forall_forall. intros c Hc. exists c. split; [reflexivity|]. unfold expand in Hc. apply in_flat_map in Hc. destruct Hc as (i & Hi & Hc). destruct i as [s|[|n]].
        + unfold lits_ok in B4. rewrite forallb_forall in B4. specialize (B4 _ Hi). cbn in B4. apply negb_true_iff in B4. intros ->. apply mem_in in Hc. congruence.
        + auto.
        + apply P95. apply (HG (S n)); [|exact Hc]. unfold tgroups. apply in_flat_map. exists (TGrp (S n)). split; [exact Hi|left; reflexivity].
      - intros E. apply map_eq_nil in E. subst w. apply negb_true_iff in B1. exact (nullable_lang U _ _ B1 Lw).
      - intros E. apply map_eq_nil in E. auto.
      - intros (x & d & E & Hx). destruct w as [|c w]; [discriminate|]. injection E as <- <-. cbn in Hx. apply orb_true_iff in B5. destruct B5 as [B5|B5].
        + unfold space_first in B5. destruct t' as [|[[|c0 s]|] t2]; try discriminate. apply N.eqb_eq in B5. subst c0. unfold expand. cbn [flat_map app map]. eexists _, _. split; [reflexivity|]. cbn. apply space32. exact OK.
        + pose proof (nsfirst_lang _ _ _ B5 Lw c w eq_refl). congruence.
      - intros (d & x & E & Hx). apply orb_true_iff in B6. destruct B6 as [B6|B6].
        + unfold space_last in B6. destruct (rev t') as [|i t2] eqn:Et; [discriminate|]. apply (f_equal (@rev _)) in Et. rewrite rev_involutive in Et. cbn in Et. destruct i as [s|]; [|discriminate]. destruct (rev s) as [|c0 s2] eqn:Es; [discriminate|]. apply N.eqb_eq in B6. subst c0. apply (f_equal (@rev _)) in Es. rewrite rev_involutive in Es. cbn in Es.
          unfold ends. rewrite Et. unfold expand. rewrite flat_map_app. cbn [flat_map]. rewrite app_nil_r, Es, app_assoc, map_app. eexists _, _. split; [reflexivity|]. cbn. apply space32. exact OK.
        + destruct w as [|c w _] using rev_ind; [destruct d; discriminate|]. rewrite map_app in E. cbn in E. apply app_inj_tail in E. destruct E as [_ <-]. cbn in Hx. pose proof (nslast_lang _ _ _ B6 Lw c w eq_refl). congruence.
    Qed.
    Lemma same_match b w y st : same_ok ru t' = true -> match_at U (r_ic ru) (r_pat ru) b (w ++ y) = Some st -> aft st = y -> bef st = rev w ++ b -> ns (expand t' w st) = ns w.
    Proof.
      intros HS Hm Ha Hb. rewrite ns_expand. unfold same_ok in HS. apply orb_true_iff in HS. destruct HS as [HS|HS].
      - unfold whole_only in HS. destruct (tsyms t') as [|[|[|]|] [|]]; try discriminate. cbn. rewrite app_nil_r. reflexivity.
      - destruct (comp (r_pat ru)) as [l|] eqn:El; [|discriminate]. apply andb_true_iff in HS. destruct HS as [HS Hz]. apply syms_eqb_eq in HS. apply negb_true_iff in Hz. rewrite <- HS.
        apply match_at_some in Hm. destruct (comp_spec U OK (r_ic ru) (r_pat ru) l _ _ w El Hm) as (xs & -> & F); [cbn; rewrite Ha; reflexivity|cbn; exact Hb|]. symmetry. apply ns_comp; assumption.
    Qed.
    Lemma exact_match b w y st : exact_ok ru t' = true -> match_at U (r_ic ru) (r_pat ru) b (w ++ y) = Some st -> aft st = y -> bef st = rev w ++ b -> expand t' w st = w.
    Proof.
      intros HS Hm Ha Hb. unfold exact_ok in HS. destruct (comp (r_pat ru)) as [l|] eqn:El; [|discriminate]. repeat rewrite andb_true_iff in HS. destruct HS as [[HS Hz] Hw]. apply syms_eqb_eq in HS. apply negb_true_iff in Hz, Hw.
      apply match_at_some in Hm. destruct (comp_spec U OK (r_ic ru) (r_pat ru) l _ _ w El Hm) as (xs & Ew & F); [cbn; rewrite Ha; reflexivity|cbn; exact Hb|].
      assert (E : forall w0, concat xs = flat_map (sym_text st w0) l).
      { intros w0. clear -F Hz Hw. induction F as [|x s xs l Hx F IH]; [reflexivity|]. cbn [existsb] in *. apply orb_false_iff in Hz, Hw. destruct Hz as [Hz1 Hz2], Hw as [Hw1 Hw2]. cbn [concat flat_map]. rewrite (IH Hz2 Hw2). f_equal. destruct s as [c|[|n]|]; try discriminate; exact Hx. }
      rewrite Ew at 2. rewrite (E w), HS. clear. unfold expand. induction t' as [|i t IH]; [reflexivity|]. cbn [flat_map]. rewrite flat_map_app, IH. f_equal. destruct i as [s|[|n]].
      - rewrite flat_map_map. cbn [sym_text]. clear. induction s; [reflexivity|]. cbn. congruence.
      - cbn. rewrite app_nil_r. reflexivity.
      - cbn. rewrite app_nil_r. reflexivity.
    Qed.
    Lemma rule_exact s d : exact_ok ru t' = true -> dec env s d -> dec env (apply_rule U s ru) d.
    Proof.
      intros HS Hd. unfold apply_rule. pose proof HB as HB'. unfold base_ok in HB'. repeat rewrite andb_true_iff in HB'. destruct HB' as [[[[[B1 B2] B3] _] _] _]. apply negb_true_iff in B1.
      destruct (sub_dec U OK rs RS (fun w w' => w' = w) env (r_ic ru) (r_pat ru) (r_rep ru) d FE B1 B2) with (s := s) as (d' & D1 & D2); [intros x Hx; destruct (HRr x Hx) as (c & Hc & Hr & _); eauto| |exact Hd|].
      - intros b w y st Hm Ha Hb Pw Lw _. exists (map C (expand t' w st)). split; [|f_equal; eapply exact_match; eauto].
        apply (tdec_dec senv env w st HI Pw _ _ B3). intros n Hn. apply Forall_forall. intros c Hc. rewrite Forall_forall in Pw. apply Pw. eapply match_groups; eauto.
      - assert (d' = d) as ->; [|exact D1]. clear -D2. induction D2 as [d|a w w' b b' -> H IH]; [reflexivity|]. rewrite IH. reflexivity.
    Qed.
    (** *** the two kinds of rules *)
    Context (Q : Prop).
    Definition rq (w w' : list dch) : Prop := rany U w w' /\ (Q -> nsp U w' = nsp U w).
    Lemma rule_same s d : same_ok ru t' = true -> dec env s d -> exists d', dec env (apply_rule U s ru) d' /\ rewr rq d d'.
    Proof.
      intros HS Hd. unfold apply_rule. pose proof HB as HB'. unfold base_ok in HB'. repeat rewrite andb_true_iff in HB'. destruct HB' as [[[[[B1 B2] B3] _] _] _]. apply negb_true_iff in B1.
      apply (sub_dec U OK rs RS rq env (r_ic ru) (r_pat ru) (r_rep ru) d FE B1 B2); [intros x Hx; destruct (HRr x Hx) as (c & Hc & Hr & _); eauto| |exact Hd].
      intros b w y st Hm Ha Hb Pw Lw _. exists (map C (expand t' w st)). pose proof (same_match b w y st HS Hm Ha Hb) as Ens. split.
      - apply (tdec_dec senv env w st HI Pw _ _ B3). intros n Hn. apply Forall_forall. intros c Hc. rewrite Forall_forall in Pw. apply Pw. eapply match_groups; eauto.
      - assert (RB : rb U (map C w) (map C (expand t' w st))).
        { eapply rb_match; eauto. intros E. rewrite E in Ens. destruct (HRr w Lw) as (c & Hc & _ & Hsp). assert (In c (ns w)) as Hin by (apply filter_In; split; [exact Hc|rewrite Hsp; reflexivity]). destruct (eq_ind_r (fun l => In c l) Hin Ens). }
        assert (En : nsp U (map C (expand t' w st)) = nsp U (map C w)) by (rewrite !nsp_C; exact Ens).
        split; [apply rsame_any; split; assumption|auto].
    Qed.
    (** the rewriting of a rule of the second kind, with its matches *)
    Definition rctx (d : list dch) (w w' : list dch) : Prop := rany U w w' /\ exists x, w = map C x /\ lang U (r_ic ru) (r_pat ru) x /\ exists db da, d = db ++ w ++ da.
    Lemma rule_any_ctx (f : str -> str -> Prop) s d : any_ok ru t' = true ->
      (forall b w y st, match_at U (r_ic ru) (r_pat ru) b (w ++ y) = Some st -> aft st = y -> bef st = rev w ++ b -> lang U (r_ic ru) (r_pat ru) w -> f w (expand t' w st)) ->
      dec env s d -> exists d', dec env (apply_rule U s ru) d' /\ rewr (fun w w' => rctx d w w' /\ exists x x', w = map C x /\ w' = map C x' /\ f x x') d d'.
    Proof.
      intros HS HF Hd. unfold apply_rule. pose proof HB as HB'. unfold base_ok in HB'. repeat rewrite andb_true_iff in HB'. destruct HB' as [[[[[B1 B2] B3] _] _] _]. apply negb_true_iff in B1. unfold any_ok in HS. repeat rewrite andb_true_iff in HS. destruct HS as [[S1 S2] S3].
      apply (sub_dec U OK rs RS _ env (r_ic ru) (r_pat ru) (r_rep ru) d FE B1 B2); [intros x Hx; destruct (HRr x Hx) as (c & Hc & Hr & _); eauto| |exact Hd].
      intros b w y st Hm Ha Hb Pw Lw Hctx. exists (map C (expand t' w st)). split.
      - apply (tdec_dec senv env w st HI Pw _ _ B3). intros n Hn. apply Forall_forall. intros c Hc. rewrite Forall_forall in Pw. apply Pw. eapply match_groups; eauto.
      - apply existsb_exists in S3. destruct S3 as (i & Hi & S3). destruct i as [s0|]; [|discriminate]. apply existsb_exists in S3. destruct S3 as (c0 & Hc0 & S3). repeat rewrite andb_true_iff in S3. destruct S3 as [[_ S3] S4]. apply N.leb_le in S3. apply N.ltb_lt in S4.
        assert (IC : In c0 (ns (expand t' w st))). { apply filter_In. split; [unfold expand; apply in_flat_map; exists (TLit s0); auto|rewrite printable_space by assumption; reflexivity]. }
        split; [|exists w, (expand t' w st); repeat split; eapply HF; eauto]. split; [|exists w; auto]. split.
        + eapply rb_match; eauto. intros E. rewrite E in IC. destruct IC.
        + exists [], (ns w), (ns (expand t' w st)), []. rewrite !nsp_C, !app_nil_r. split; [reflexivity|]. split; [reflexivity|]. right. split; [intros E; exact (eq_ind _ (fun l => In c0 l) IC _ E)|].
          apply Forall_forall. intros c Hc. apply filter_In in Hc. destruct Hc as [Hc _]. pose proof (nobody_lang _ _ _ S1 Lw) as Nw. rewrite Forall_forall in Nw. unfold expand in Hc. apply in_flat_map in Hc. destruct Hc as (i & Hi2 & Hc). rewrite forallb_forall in S2. specialize (S2 i Hi2). destruct i as [s1|[|n]].
          * rewrite forallb_forall in S2. specialize (S2 c Hc). apply negb_true_iff in S2. intros Hb2. apply mem_in in Hb2. congruence.
          * auto.
          * apply Nw. apply (match_groups b w y st Hm Ha Hb (S n)); [|exact Hc]. unfold tgroups. apply in_flat_map. exists (TGrp (S n)). split; [exact Hi2|left; reflexivity].
    Qed.
  End Apply.
  Lemma must_rare ru : mustb rare_symbols (r_pat ru) = true -> forall x, lang U (r_ic ru) (r_pat ru) x -> exists c, In c x /\ rare c /\ u_space U c = false.
  Proof.
    intros H x Hx. destruct (must_lang U OK (r_ic ru) rare_symbols rare_caseless (r_pat ru) x H Hx) as (c & Hc & Hi). exists c. split; [exact Hc|]. split; [apply rare_sym; exact Hi|]. apply rare_in in Hi. apply (symbols_space U OK). tauto.
  Qed.
End Rule.
