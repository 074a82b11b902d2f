(** Proofs about quoted and bracketed parts: marks, tokens, restoration. *)
From Coq Require Import Ascii String.
From Coq Require Import List NArith ZArith Arith Bool Lia.
From Verif Require Import PyBase Regex MTokenizer MSentencizer SText LBase LText LRegex LSub LSave LSentencizer.
Import ListNotations.
Local Open Scope nat_scope.

(** ** parts *)
Lemma first_occ {A} (o : A) x r x' r' : x ++ o :: r = x' ++ o :: r' -> ~ In o x -> ~ In o x' -> x = x' /\ r = r'.
Proof.
  revert x'. induction x as [|a x IH]; intros [|b x'] E H H'; cbn in E.
  - injection E as ->. auto.
  - injection E as <- E. exfalso. apply H'. left. reflexivity.
  - injection E as -> E. exfalso. apply H. left. reflexivity.
  - injection E as <- E. destruct (IH x' E) as [-> ->]; auto; intros F; [apply H|apply H']; right; exact F.
Qed.
Lemma parts_fun {A} (o c : A) s ps tl ps' tl' : parts_of o c s ps tl -> parts_of o c s ps' tl' -> ps = ps' /\ tl = tl'.
Proof.
  intros H; revert ps' tl'. induction H as [s Hn|pre inside rest ps tl Hp Hi H IH]; intros ps' tl' H'.
  - destruct H' as [s Hn'|pre' inside' rest' ps' tl' Hp' Hi' H']; [auto|]. exfalso. exact (Hn pre' inside' rest' eq_refl).
  - remember (pre ++ [o] ++ inside ++ [c] ++ rest) as s eqn:Es. destruct H' as [s Hn'|pre' inside' rest' ps' tl' Hp' Hi' H']; [exfalso; exact (Hn' _ _ _ Es)|].
    cbn [app] in Es. apply first_occ in Es; auto. destruct Es as [<- Es]. apply first_occ in Es; auto. destruct Es as [<- <-]. destruct (IH _ _ H') as [<- <-]. auto.
Qed.

Section Collapse.
  Context (U : udb).
  Notation words := (split_ws (u_space U)).
  Lemma collapse_app_ns p x c r : u_space U c = false -> collapse U p (x ++ c :: r) = collapse U p x ++ c :: collapse U false r.
  Proof. intros Hc. revert p. induction x as [|d x IH]; intros p; cbn [app collapse]; [rewrite Hc; reflexivity|]. destruct (u_space U d); rewrite IH; [destruct p|]; reflexivity. Qed.
  Context (OK : udb_ok U).
  Lemma collapse_in c p s : In c (collapse U p s) -> u_space U c = false -> In c s.
  Proof.
    revert p. induction s as [|d s IH]; intros p H Hc; cbn in *; [exact H|]. destruct (u_space U d) eqn:Ed; [|destruct H as [->|H]; eauto]. apply in_app_iff in H. destruct H as [H|H]; [|eauto].
    destruct p; [destruct H|]. destruct H as [H|[]]. subst. pose proof (space_is_space U OK). unfold space in Hc. congruence.
  Qed.
  Lemma collapse_space c p s : In c (collapse U p s) -> u_space U c = true -> c = space.
  Proof.
    revert p. induction s as [|d s IH]; intros p H Hc; cbn in *; [destruct H|]. destruct (u_space U d) eqn:Ed.
    - apply in_app_iff in H. destruct H as [H|H]; [|eauto]. destruct p; [destruct H|]. destruct H as [H|[]]. auto.
    - destruct H as [->|H]; [congruence|eauto].
  Qed.
  Lemma collapse_split p s x o r : u_space U o = false -> collapse U p s = x ++ o :: r -> exists x' r', s = x' ++ o :: r' /\ r = collapse U false r'.
  Proof.
    intros Ho. revert p x. induction s as [|d s IH]; intros p x E; cbn in E; [destruct x; discriminate|]. destruct (u_space U d) eqn:Ed.
    - assert (exists x', collapse U true s = x' ++ o :: r) as [x' E'].
      { destruct p; [exists x; exact E|]. destruct x as [|y x]; cbn in E; injection E as E1 E; [|exists x; exact E]. exfalso. subst. pose proof (space_is_space U OK). unfold space in Ho. congruence. }
      destruct (IH _ _ E') as (x2 & r2 & -> & ->). exists (d :: x2), r2. auto.
    - destruct x as [|y x]; cbn in E; injection E as E1 E.
      + subst. exists [], s. auto.
      + destruct (IH _ _ E) as (x2 & r2 & -> & ->). exists (d :: x2), r2. auto.
  Qed.
  Fixpoint cps (p : bool) (ps : list (str * str)) : list (str * str) :=
    match ps with [] => [] | (pre, ins) :: r => (collapse U p pre, collapse U false ins) :: cps false r end.
  Lemma collapse_parts o c s ps tl : u_space U o = false -> u_space U c = false -> parts_of o c s ps tl ->
    forall p, parts_of o c (collapse U p s) (cps p ps) (collapse U (match ps with [] => p | _ => false end) tl).
  Proof.
    intros Ho Hc. induction 1 as [s Hn|pre inside rest ps tl Hp Hi H IH]; intros p.
    - apply parts_none. intros x y z E. cbn [app] in E. apply collapse_split in E; [|exact Ho]. destruct E as (x' & r' & -> & E). symmetry in E. apply collapse_split in E; [|exact Hc].
      destruct E as (y' & z' & -> & _). exact (Hn x' y' z' eq_refl).
    - cbn [app cps]. rewrite collapse_app_ns by exact Ho. rewrite collapse_app_ns by exact Hc. apply (parts_some o c (collapse U p pre) (collapse U false inside)).
      + intros F. apply collapse_in in F; auto.
      + intros F. apply collapse_in in F; auto.
      + specialize (IH false). destruct ps; exact IH.
  Qed.
  Lemma words_collapse s : forall p cur, (p = true -> cur = []) -> split_ws_aux (u_space U) cur (collapse U p s) = split_ws_aux (u_space U) cur s.
  Proof.
    induction s as [|d s IH]; intros p cur H; cbn [collapse split_ws_aux]; [reflexivity|]. destruct (u_space U d) eqn:Ed.
    - destruct p.
      + rewrite (H eq_refl). cbn [app]. apply IH. auto.
      + cbn [app split_ws_aux]. pose proof (space_is_space U OK) as Hs. unfold space. rewrite Hs. destruct cur; [apply IH; auto|]. f_equal. apply IH. auto.
    - cbn [split_ws_aux]. rewrite Ed. apply IH. discriminate.
  Qed.
  Lemma words_collapsed p s : words (collapse U p s) = words s.
  Proof. apply words_collapse. reflexivity. Qed.
  (** marks *)
  Definition core (starter ender : char) (n : nat) : str := [starter] ++ str_of_nat n ++ [ender].
  Lemma digit_not_space c : (48 <= c <= 57)%N -> u_space U c = false.
  Proof. intros H. rewrite (ok_space _ OK) by lia. unfold ascii_space. destruct (N.leb_spec 9 c), (N.leb_spec c 13), (N.leb_spec 28 c), (N.leb_spec c 32); try lia; reflexivity. Qed.
  Lemma core_word starter ender n : u_space U starter = false -> u_space U ender = false -> core starter ender n <> [] /\ Forall (fun c => u_space U c = false) (core starter ender n).
  Proof.
    intros H1 H2. split; [discriminate|]. unfold core. rewrite !Forall_app. split; [constructor; [exact H1|constructor]|]. split; [|constructor; [exact H2|constructor]].
    eapply Forall_impl; [|apply str_of_nat_digits]. exact digit_not_space.
  Qed.
  Lemma words_mark starter ender n pre rest : u_space U starter = false -> u_space U ender = false ->
    words (pre ++ mark starter ender n ++ rest) = words pre ++ core starter ender n :: words rest.
  Proof.
    intros H1 H2. replace (pre ++ mark starter ender n ++ rest) with (pre ++ space :: (core starter ender n ++ space :: rest))
      by (unfold mark, core; rewrite <- !app_assoc; reflexivity).
    rewrite (split_ws_app_space (u_space U) pre space) by apply (space_is_space U OK). f_equal.
    destruct (core_word starter ender n H1 H2) as [C1 C2]. rewrite split_ws_word_space by (assumption || apply (space_is_space U OK)). reflexivity.
  Qed.
End Collapse.

(** ** a text with marks, as the encoding of a list of units *)
Section Encoding.
  Context (U : udb) (OK : udb_ok U).
  Notation words := (split_ws (u_space U)).
  Lemma reserved_not_space c : reserved c -> u_space U c = false.
  Proof. intros H. apply (ok_symbols_space _ OK). unfold reserved, code_symbols, quote_start, quote_end, bracket_start, bracket_end in *. cbn in *. tauto. Qed.
  Lemma res_qs : reserved quote_start. Proof. left. reflexivity. Qed.
  Lemma res_qe : reserved quote_end. Proof. right. left. reflexivity. Qed.
  Lemma res_bs : reserved bracket_start. Proof. right. right. left. reflexivity. Qed.
  Lemma res_be : reserved bracket_end. Proof. right. right. right. left. reflexivity. Qed.
  Local Hint Resolve reserved_not_space res_qs res_qe res_bs res_be : core.

  Inductive enc (Q : list str) (BR : nat -> list item -> Prop) : list item -> str -> Prop :=
  | enc_nil : enc Q BR [] []
  | enc_ch c i t : ~ reserved c -> enc Q BR i t -> enc Q BR (Ch c :: i) (c :: t)
  | enc_q n inside i t : nth_error Q n = Some inside -> enc Q BR i t -> enc Q BR (Quoted inside :: i) (mark quote_start quote_end n ++ t)
  | enc_b n inside i t : BR n inside -> enc Q BR i t -> enc Q BR (Bracketed inside :: i) (mark bracket_start bracket_end n ++ t).

  Section Gen.
    Context (Q : list str) (BR : nat -> list item -> Prop).
    Lemma enc_app i1 t1 i2 t2 : enc Q BR i1 t1 -> enc Q BR i2 t2 -> enc Q BR (i1 ++ i2) (t1 ++ t2).
    Proof. induction 1; intros H2; cbn [app]; rewrite <- ?app_assoc; try econstructor; eauto. Qed.
    Lemma enc_chars s : Forall (fun c => ~ reserved c) s -> enc Q BR (map Ch s) s.
    Proof. induction 1; constructor; auto. Qed.
    Lemma mark_chars st en n d : In d (mark st en n) -> d = space \/ d = st \/ d = en \/ (48 <= d <= 57)%N.
    Proof.
      unfold mark. rewrite !in_app_iff. cbn [In]. intros [[H|[]]|[[H|[]]|[H|[[H|[]]|[H|[]]]]]]; auto.
      pose proof (str_of_nat_digits n) as F. rewrite Forall_forall in F. auto.
    Qed.
    Lemma mark_split st en n t d a b : ~ In d (mark st en n) -> mark st en n ++ t = a ++ d :: b -> exists a', a = mark st en n ++ a' /\ t = a' ++ d :: b.
    Proof.
      generalize (mark st en n) as mk. intros mk; revert a. induction mk as [|x mk IH]; intros a Hd E; cbn [app] in *; [exists a; auto|]. destruct a as [|y a]; cbn [app] in E; injection E as E1 E.
      - subst. exfalso. apply Hd. left. reflexivity.
      - subst y. destruct (IH a ltac:(intros F; apply Hd; right; exact F) E) as (a' & -> & ->). exists a'. auto.
    Qed.
    (** a character that is in no mark comes from a unit *)
    Definition outside (d : char) : Prop := d <> space /\ ~ reserved d /\ ~ (48 <= d <= 57)%N.
    Lemma outside_mark d st en n : outside d -> reserved st -> reserved en -> ~ In d (mark st en n).
    Proof. intros (H1 & H2 & H3) Hs He H. apply mark_chars in H. destruct H as [->|[->|[->|H]]]; auto. Qed.
    Lemma enc_split d : outside d -> forall i t, enc Q BR i t -> forall a b, t = a ++ d :: b -> exists i1 i2, i = i1 ++ Ch d :: i2 /\ enc Q BR i1 a /\ enc Q BR i2 b.
    Proof.
      intros Hd. induction 1 as [|c i t Hc H IH|n inside i t Hn H IH|n inside i t Hn H IH]; intros a b E.
      - destruct a; discriminate.
      - destruct a as [|x a]; cbn [app] in E; injection E as -> E.
        + subst. exists [], i. repeat split; [constructor|exact H].
        + destruct (IH a b E) as (i1 & i2 & -> & H1 & H2). exists (Ch x :: i1), i2. repeat split; auto. constructor; auto.
      - apply mark_split in E; [|apply outside_mark; auto]. destruct E as (a' & -> & E). destruct (IH _ _ E) as (i1 & i2 & -> & H1 & H2).
        exists (Quoted inside :: i1), i2. repeat split; auto. apply enc_q; auto.
      - apply mark_split in E; [|apply outside_mark; auto]. destruct E as (a' & -> & E). destruct (IH _ _ E) as (i1 & i2 & -> & H1 & H2).
        exists (Bracketed inside :: i1), i2. repeat split; auto. apply enc_b; auto.
    Qed.
    Lemma enc_in d i t : enc Q BR i t -> In (Ch d) i -> In d t.
    Proof. induction 1; cbn [In]; [auto| | |]; intros [E|E]; try discriminate; [injection E as ->; left; reflexivity|right; auto| |]; apply in_app_iff; right; auto. Qed.
    Lemma enc_split_items i1 i2 t : enc Q BR (i1 ++ i2) t -> exists t1 t2, t = t1 ++ t2 /\ enc Q BR i1 t1 /\ enc Q BR i2 t2.
    Proof.
      revert t. induction i1 as [|x i1 IH]; intros t H; cbn [app] in H; [exists [], t; repeat split; [constructor|exact H]|].
      inversion H as [|c i t' Hc H'|n inside i t' Hn H'|n inside i t' Hn H']; subst; destruct (IH _ H') as (t1 & t2 & -> & H1 & H2).
      - exists (c :: t1), t2. repeat split; auto. constructor; auto.
      - exists (mark quote_start quote_end n ++ t1), t2. rewrite <- app_assoc. repeat split; auto. apply enc_q; auto.
      - exists (mark bracket_start bracket_end n ++ t1), t2. rewrite <- app_assoc. repeat split; auto. apply enc_b; auto.
    Qed.
    (** parts of the text are parts of the list of units *)
    Lemma enc_parts o c : outside o -> outside c -> forall t ps tl, parts_of o c t ps tl -> forall i, enc Q BR i t ->
      exists ips itl, parts_of (Ch o) (Ch c) i ips itl /\ Forall2 (fun p q => enc Q BR (fst p) (fst q) /\ enc Q BR (snd p) (snd q)) ips ps /\ enc Q BR itl tl.
    Proof.
      intros Ho Hc. induction 1 as [t Hn|pre inside rest ps tl Hp Hi H IH]; intros i E.
      - exists [], i. split; [|split; [constructor|exact E]]. apply parts_none. intros x y z ->.
        apply enc_split_items in E. destruct E as (t1 & t2 & -> & _ & E). cbn [app] in E. inversion E as [|? ? t3 _ E'| |]; subst.
        apply enc_split_items in E'. destruct E' as (t4 & t5 & -> & _ & E'). inversion E' as [|? ? t6 _ E2| |]; subst. exact (Hn t1 t4 t6 eq_refl).
      - cbn [app] in E. destruct (enc_split o Ho _ _ E _ _ eq_refl) as (i1 & i2 & -> & E1 & E2).
        destruct (enc_split c Hc _ _ E2 _ _ eq_refl) as (i3 & i4 & -> & E3 & E4). destruct (IH _ E4) as (ips & itl & P & F & L).
        exists ((i1, i3) :: ips), itl. split; [|split; [constructor; [split; assumption|exact F]|exact L]].
        apply (parts_some (Ch o) (Ch c) i1 i3 i4); [intros F1; apply Hp; eapply enc_in; eauto|intros F1; apply Hi; eapply enc_in; eauto|exact P].
    Qed.
    (** tokens *)
    Context (TB : nat -> list str -> Prop).
    Definition tok_enc (k : tok) (w : str) : Prop :=
      match k with
      | Word x => w = x /\ Forall (fun c => ~ reserved c) x
      | Part ts => (exists n inside, w = core quote_start quote_end n /\ nth_error Q n = Some inside /\ ts = [[34%N]] ++ words inside ++ [[34%N]]) \/
                   (exists n, w = core bracket_start bracket_end n /\ TB n ts)
      end.
    Context (HB : forall n inside, BR n inside -> exists its, toks_of U inside its /\ TB n ([[40%N]] ++ flat_map spell its ++ [[41%N]])).
    Lemma enc_span i t : enc Q BR i t -> exists w i' t', i = map Ch w ++ i' /\ t = w ++ t' /\ Forall (fun c => u_space U c = false) w /\ Forall (fun c => ~ reserved c) w /\ enc Q BR i' t' /\
      (forall c l, i' = Ch c :: l -> u_space U c = true) /\ (forall c l, t' = c :: l -> u_space U c = true).
    Proof.
      induction 1 as [|c i t Hc H IH|n inside i t Hn H IH|n inside i t Hn H IH].
      - exists [], [], []. repeat split; try constructor; discriminate.
      - destruct (u_space U c) eqn:Ec.
        + exists [], (Ch c :: i), (c :: t). repeat split; try constructor; auto; intros d l E; injection E as -> _; exact Ec.
        + destruct IH as (w & i' & t' & -> & -> & H1 & H2 & H3 & H4 & H5). exists (c :: w), i', t'. repeat split; auto.
      - exists [], (Quoted inside :: i), (mark quote_start quote_end n ++ t). split; [reflexivity|]. split; [reflexivity|]. split; [constructor|]. split; [constructor|]. split; [apply enc_q; auto|]. split; [discriminate|]. intros d l E. injection E as <- _. apply (space_is_space U OK).
      - exists [], (Bracketed inside :: i), (mark bracket_start bracket_end n ++ t). split; [reflexivity|]. split; [reflexivity|]. split; [constructor|]. split; [constructor|]. split; [apply enc_b; auto|]. split; [discriminate|]. intros d l E. injection E as <- _. apply (space_is_space U OK).
    Qed.
    Lemma words_span w t' : w <> [] -> Forall (fun c => u_space U c = false) w -> (forall c l, t' = c :: l -> u_space U c = true) -> words (w ++ t') = w :: words t'.
    Proof.
      intros Hn Hw H. destruct t' as [|c l]; [rewrite app_nil_r; apply split_ws_word; assumption|]. pose proof (H c l eq_refl) as Hc. rewrite split_ws_word_space by assumption. f_equal. symmetry. apply split_ws_cons_space. exact Hc.
    Qed.
    Lemma enc_toks : forall len i t, length i <= len -> enc Q BR i t -> exists toks, toks_of U i toks /\ Forall2 tok_enc toks (words t).
    Proof.
      induction len as [|len IH]; intros i t Hl E.
      - destruct i; [|cbn in Hl; lia]. inversion E; subst. exists []. split; constructor.
      - inversion E as [|c i' t' Hc H|n inside i' t' Hn H|n inside i' t' Hn H]; subst.
        + exists []. split; constructor.
        + destruct (u_space U c) eqn:Ec.
          * destruct (IH i' t' ltac:(cbn in Hl; lia) H) as (toks & T & F). exists toks. split; [apply toks_space; assumption|]. rewrite split_ws_cons_space by exact Ec. exact F.
          * destruct (enc_span _ _ E) as (w & i2 & t2 & E1 & E2 & H1 & H2 & H3 & H4 & H5).
            assert (w <> []) as Hw. { intros ->. cbn [map app] in E1. specialize (H4 c i' (eq_sym E1)). congruence. }
            destruct (IH i2 t2) as (toks & T & F); [apply (f_equal (@length item)) in E1; rewrite app_length, map_length in E1; destruct w; [congruence|]; cbn [length] in *; lia|exact H3|].
            exists (Word w :: toks). rewrite E1, E2. split; [apply toks_word; auto; rewrite Forall_forall in H1; exact H1|]. rewrite words_span by assumption. constructor; [|exact F]. split; [reflexivity|exact H2].
        + destruct (IH i' t' ltac:(cbn in Hl; lia) H) as (toks & T & F). eexists. split; [apply toks_quoted; exact T|].
          pose proof (words_mark U OK quote_start quote_end n [] t' ltac:(auto) ltac:(auto)) as EW. cbn [app] in EW. rewrite EW. constructor; [|exact F]. left. exists n, inside. auto.
        + destruct (IH i' t' ltac:(cbn in Hl; lia) H) as (toks & T & F). destruct (HB _ _ Hn) as (its & T' & B). eexists. split; [apply toks_bracketed; [exact T'|exact T]|].
          pose proof (words_mark U OK bracket_start bracket_end n [] t' ltac:(auto) ltac:(auto)) as EW. cbn [app] in EW. rewrite EW. constructor; [|exact F]. right. exists n. auto.
    Qed.
  End Gen.
  (** marked texts *)
  Lemma enc_marked_quotes Q BR n ps tl : Forall (fun p => Forall (fun c => ~ reserved c) (fst p)) ps -> Forall (fun c => ~ reserved c) tl ->
    (forall k x, nth_error (map snd ps) k = Some x -> nth_error Q (n + k) = Some x) -> enc Q BR (chunked Ch Quoted ps tl) (marked quote_start quote_end n ps tl).
  Proof.
    revert n. induction ps as [|[pre inside] ps IH]; intros n Hps Htl HQ.
    - apply enc_chars. exact Htl.
    - inversion Hps as [|? ? Hp Hps']; subst. unfold chunked. cbn [flat_map marked fst snd] in *. rewrite <- !app_assoc. apply enc_app; [apply enc_chars; exact Hp|]. cbn [app].
      apply enc_q; [rewrite <- (Nat.add_0_r n); apply HQ; reflexivity|]. apply IH; [exact Hps'|exact Htl|]. intros k x Hk. rewrite Nat.add_succ_comm. apply HQ. exact Hk.
  Qed.
  Lemma enc_marked_brackets Q (BR : nat -> list item -> Prop) n ips itl ps tl : Forall2 (fun p q => enc Q (fun _ _ => False) (fst p) (fst q) /\ enc Q (fun _ _ => False) (snd p) (snd q)) ips ps -> enc Q (fun _ _ => False) itl tl ->
    (forall k x, nth_error (map snd ips) k = Some x -> BR (n + k) x) -> enc Q BR (chunked (fun i => i) Bracketed ips itl) (marked bracket_start bracket_end n ps tl).
  Proof.
    assert (W : forall i t, enc Q (fun _ _ => False) i t -> enc Q BR i t) by (induction 1; try (constructor; auto; fail); contradiction).
    intros H; revert n. induction H as [|[ipre iins] [pre ins] ips ps [H1 H2] H IH]; intros n Htl HB.
    - unfold chunked. cbn. rewrite map_id. auto.
    - unfold chunked. cbn [flat_map marked fst snd] in *. rewrite map_id, <- !app_assoc. apply enc_app; [auto|]. cbn [app]. apply enc_b; [rewrite <- (Nat.add_0_r n); apply HB; reflexivity|].
      apply IH; [exact Htl|]. intros k x Hk. rewrite Nat.add_succ_comm. apply HB. exact Hk.
  Qed.
End Encoding.

(** ** sanitization of a block *)
Section Close.
  Context (U : udb) (OK : udb_ok U).
  Notation words := (split_ws (u_space U)).
  Definition re_close : re := seqs [dot; ch 34].
  Lemma close_lang x : lang U false re_close x <-> x = [46; 34]%N.
  Proof.
    unfold re_close. cbn [seqs lang]. split.
    - intros (p & q & -> & Hp & Hq). unfold dot, ch in *. cbn [lang] in *. destruct Hp as (c & -> & Hc), Hq as (d & -> & Hd). apply cc_exact in Hc, Hd. subst. reflexivity.
    - intros ->. exists [46%N], [34%N]. split; [reflexivity|]. split; unfold dot, ch; cbn [lang]; eexists; (split; [reflexivity|apply cc_exact; reflexivity]).
  Qed.
  Lemma close_cons c s : (forall s', c :: s <> 46%N :: 34%N :: s') -> close_quotes (c :: s) = c :: close_quotes s.
  Proof.
    intros H. destruct s as [|d s]; [reflexivity|]. cbn [close_quotes]. destruct (N.eqb_spec c 46); [|reflexivity]. destruct (N.eqb_spec d 34); [|reflexivity]. subst. exfalso. exact (H s eq_refl).
  Qed.
  Lemma close_prefix pre y : (forall x z s', pre = x ++ z -> z <> [] -> z ++ y <> 46%N :: 34%N :: s') -> close_quotes (pre ++ y) = pre ++ close_quotes y.
  Proof.
    induction pre as [|c pre IH]; intros H; [reflexivity|]. cbn [app]. rewrite close_cons.
    - f_equal. apply IH. intros x z s' -> Hz. apply (H (c :: x) z s' eq_refl Hz).
    - intros s' E. exact (H [] (c :: pre) s' eq_refl ltac:(discriminate) E).
  Qed.
  Lemma close_scan b a ps tl : scan U false re_close b a ps tl -> subst_of [TLit [46; 34; 182]%N] ps tl = close_quotes a.
  Proof.
    induction 1 as [b a Hno|b pre w y st ps tl Hp Hm Hw Lw Ha Hb Hs IH].
    - unfold subst_of. cbn. rewrite <- (app_nil_r a) at 2. rewrite close_prefix; [cbn; rewrite app_nil_r; reflexivity|].
      intros x z s' -> Hz E. rewrite app_nil_r in E. apply (no_match_here U re_close (rev x ++ b) z [46; 34]%N s' eq_refl); [apply (Hno x z eq_refl)|exact E|apply close_lang; reflexivity].
    - apply close_lang in Lw. subst w. rewrite close_prefix.
      + unfold subst_of. cbn [flat_map fst snd expand app]. rewrite <- !app_assoc. f_equal. cbn [app close_quotes N.eqb Pos.eqb andb]. do 3 f_equal. exact IH.
      + intros x z s' -> Hz E. apply (no_match_here U re_close (rev x ++ b) (z ++ [46; 34]%N ++ y) [46; 34]%N s' eq_refl); [apply (Hp x z eq_refl Hz)|exact E|apply close_lang; reflexivity].
  Qed.
  Theorem sub_close text : sub U false re_close [TLit [46; 34; 182]%N] text = close_quotes text.
  Proof. destruct (sub_scan U false re_close [TLit [46; 34; 182]%N] text eq_refl) as (ps & tl & H & ->). eapply close_scan. exact H. Qed.
  Lemma close_spaces_left p s : Forall (fun c => u_space U c = true) p -> close_quotes (p ++ s) = p ++ close_quotes s.
  Proof.
    intros H. apply close_prefix. intros x z s' -> Hz E. apply Forall_app in H. destruct H as [_ H]. destruct z as [|c z]; [congruence|]. inversion H; subst. injection E as -> _.
    rewrite (ok_space _ OK) in * by reflexivity. discriminate.
  Qed.
  Lemma close_spaces_right p : Forall (fun c => u_space U c = true) p -> forall n s, length s <= n -> close_quotes (s ++ p) = close_quotes s ++ p.
  Proof.
    intros H. assert (HP : close_quotes p = p) by (pose proof (close_spaces_left p [] H) as E; cbn in E; rewrite !app_nil_r in E; exact E).
    induction n as [|n IH]; intros s Hs; (destruct s as [|c s]; [exact HP|]); [cbn in Hs; lia|]. destruct s as [|d s].
    - cbn [app]. rewrite close_cons; [rewrite HP; reflexivity|]. intros s' E. injection E as -> ->. inversion H; subst. rewrite (ok_space _ OK) in * by reflexivity. discriminate.
    - cbn [app close_quotes] in *. destruct (N.eqb c 46 && N.eqb d 34).
      + cbn [app]. do 3 f_equal. apply IH. cbn in Hs. lia.
      + cbn [app]. f_equal. change (close_quotes ((d :: s) ++ p) = close_quotes (d :: s) ++ p). apply IH. cbn in *. lia.
  Qed.
  Lemma words_lead p s : Forall (fun c => u_space U c = true) p -> words (p ++ s) = words s.
  Proof. induction 1 as [|c p Hc H IH]; [reflexivity|]. cbn [app]. rewrite split_ws_cons_space by exact Hc. exact IH. Qed.
  Theorem sanitize_block b : sanitize U sz_sanitization b = join [space] (words (close_quotes b)).
  Proof.
    unfold sanitize, sz_sanitization. cbn [fold_left]. unfold apply_rule. cbn [r_ic r_pat r_rep mk]. change (seqs [dot; ch 34]) with re_close. rewrite sub_close. change (lit " ") with [space]. f_equal.
    destruct (lstrip_split U b) as (p & E & H). unfold strip. set (l := lstrip (u_space U) b) in *. destruct (lstrip_split U (rev l)) as (q & E2 & H2). set (r := lstrip (u_space U) (rev l)) in *.
    assert (El : l = rev r ++ rev q) by (rewrite <- rev_app_distr, <- E2, rev_involutive; reflexivity).
    rewrite E at 1. rewrite close_spaces_left by exact H. rewrite words_lead by exact H. rewrite El. rewrite (close_spaces_right (rev q) (Forall_rev H2) _ _ (le_n _)).
    symmetry. apply (words_trail U). apply Forall_rev. exact H2.
  Qed.
  Lemma close_in c s : In c (close_quotes s) -> In c s \/ c = 182%N.
  Proof.
    assert (K : forall n s, length s <= n -> In c (close_quotes s) -> In c s \/ c = 182%N).
    { induction n as [|n IH]; intros t Ht Hc; (destruct t as [|x t]; [destruct Hc|]); [cbn in Ht; lia|]. destruct t as [|y t]; [auto|]. cbn [close_quotes] in Hc.
      destruct (N.eqb_spec x 46), (N.eqb_spec y 34); cbn [andb] in Hc; [subst| | |]; cbn [In] in *.
      - destruct Hc as [Hc|[Hc|[Hc|Hc]]]; auto. apply IH in Hc; [tauto|]. cbn in Ht. lia.
      - destruct Hc as [Hc|Hc]; auto. apply (IH (y :: t)) in Hc; [cbn in Hc; tauto|]. cbn in *. lia.
      - destruct Hc as [Hc|Hc]; auto. apply (IH (y :: t)) in Hc; [cbn in Hc; tauto|]. cbn in *. lia.
      - destruct Hc as [Hc|Hc]; auto. apply (IH (y :: t)) in Hc; [cbn in Hc; tauto|]. cbn in *. lia. }
    apply (K (length s)). lia.
  Qed.
End Close.

(** ** restoration *)
Lemma Forall2_in_r {A B} (R : A -> B -> Prop) l1 l2 : Forall2 R l1 l2 -> forall b, In b l2 -> exists a, In a l1 /\ R a b.
Proof. induction 1 as [|x y l1 l2 Hxy H IH]; intros b Hb; [destruct Hb|]. destruct Hb as [<-|Hb]; [exists x; split; [left; reflexivity|exact Hxy]|]. destruct (IH b Hb) as (a & Ha & Hr). exists a. split; [right; exact Ha|exact Hr]. Qed.
Lemma join_in c ws : In c (join [space] ws) -> c = space \/ exists w, In w ws /\ In c w.
Proof.
  induction ws as [|w [|x ws] IH]; intros H; [destruct H|right; exists w; split; [left; reflexivity|exact H]|]. cbn [join] in H. apply in_app_iff in H. destruct H as [H|H]; [right; exists w; split; [left; reflexivity|exact H]|].
  apply in_app_iff in H. destruct H as [[H|[]]|H]; [auto|]. destruct (IH H) as [E|(y & Hy & Hc)]; [auto|]. right. exists y. split; [right; exact Hy|exact Hc].
Qed.
Lemma words_in sp c s w : In w (split_ws sp s) -> In c w -> In c s.
Proof.
  intros Hw Hc. assert (In c (concat (split_ws sp s))) as H by (apply in_concat; eauto). rewrite split_ws_concat in H. apply filter_In in H. tauto.
Qed.
Lemma parts_in {A} (o c : A) t ps tl : parts_of o c t ps tl -> forall d, ((exists p, In p ps /\ (In d (fst p) \/ In d (snd p))) \/ In d tl) -> In d t.
Proof.
  induction 1 as [t Hn|pre inside rest ps tl Hp Hi H IH]; intros d Hd.
  - destruct Hd as [(p & [] & _)|Hd]; exact Hd.
  - rewrite !in_app_iff. destruct Hd as [(p & [<-|Hp'] & Hd)|Hd]; [cbn [fst snd] in Hd; tauto| |]; do 4 right; apply IH; [left; exists p; auto|right; exact Hd].
Qed.
Lemma marked_in st en n ps tl d : In d (marked st en n ps tl) -> (exists p, In p ps /\ In d (fst p)) \/ In d tl \/ exists k, In d (mark st en k).
Proof.
  revert n. induction ps as [|[pre ins] ps IH]; intros n H; cbn [marked] in H; [auto|]. rewrite !in_app_iff in H. destruct H as [H|[H|H]].
  - left. exists (pre, ins). split; [left; reflexivity|exact H].
  - right. right. eauto.
  - destruct (IH _ H) as [(p & Hp & Hd)|Hd]; [|auto]. left. exists p. split; [right; exact Hp|exact Hd].
Qed.

Section Restore.
  Context (U : udb) (OK : udb_ok U).
  Notation words := (split_ws (u_space U)).
  Notation tk := (fun s => Ok (words s)).
  Local Notation no_brackets := (fun (_ : nat) (_ : list item) => False).
  Local Notation no_parts := (fun (_ : nat) (_ : list str) => False).
  Definition in_table (Q B : list str) (n : nat) (ts : list str) : Prop :=
    exists it its, nth_error B n = Some it /\ Forall2 (tok_enc U Q no_parts) its (words it) /\ ts = [[40%N]] ++ flat_map spell its ++ [[41%N]].

  Lemma find_all_spec o c st en : forall blocks ctr, Forall (fun b => ~ In 10%N b) blocks -> let r := find_all U (re_block o c) st en blocks ctr in
    exists ext, snd r = ctr ++ ext /\
    Forall2 (fun b b' => exists n ps tl, parts_of o c b ps tl /\ b' = collapse U false (marked st en n ps tl) /\
      (forall k x, nth_error (map snd ps) k = Some x -> nth_error (snd r) (n + k) = Some x)) blocks (fst r).
  Proof.
    induction blocks as [|b bs IH]; intros ctr Hnl; cbn [find_all].
    - exists []. cbn. rewrite app_nil_r. split; [reflexivity|constructor].
    - inversion Hnl as [|? ? Hb Hbs]; subst. destruct (find_blocks_spec U o c st en b ctr Hb) as (ps & tl & P & ->).
      destruct (IH (ctr ++ map snd ps) Hbs) as (ext & E & F). destruct (find_all U (re_block o c) st en bs (ctr ++ map snd ps)) as [bs' Q]. cbn [fst snd] in *.
      exists (map snd ps ++ ext). split; [rewrite E, app_assoc; reflexivity|]. constructor; [|exact F].
      exists (length ctr), ps, tl. split; [exact P|]. split; [reflexivity|]. intros k x Hk. rewrite E, <- app_assoc, nth_error_app2 by lia. rewrite Nat.add_comm, Nat.add_sub.
      rewrite nth_error_app1; [exact Hk|]. apply nth_error_Some. intros HN. discriminate (eq_trans (eq_sym HN) Hk).
  Qed.

  Lemma core_inside st en n : slice (Some 1%Z) (Some (-1)%Z) (core st en n) = str_of_nat n.
  Proof. apply inside_slice. Qed.
  Lemma index_nth {A} (l : list A) n x : nth_error l n = Some x -> index l (Z.of_nat n) = Ok x.
  Proof.
    intros H. unfold index. assert (n < length l) by (apply nth_error_Some; congruence). destruct (Z.ltb_spec (Z.of_nat n) 0); [lia|]. destruct (Z.leb_spec (Z.of_nat (length l)) (Z.of_nat n)); [lia|].
    destruct (Z.ltb_spec (Z.of_nat n) 0); [lia|]. cbn [orb]. rewrite Nat2Z.id, H. reflexivity.
  Qed.
  Lemma starts_one (x s : char) t : startswith (x :: t) [s] = N.eqb s x.
  Proof. unfold startswith. cbn [strip_prefix]. destruct (N.eqb s x); reflexivity. Qed.
  Lemma quote_ok Q n inside : nth_error Q n = Some inside -> quote_block U tk Q (core quote_start quote_end n) = Ok ([[34%N]] ++ words inside ++ [[34%N]]).
  Proof. intros H. unfold quote_block. rewrite core_inside, (int_str U OK). cbn [rbind]. rewrite (index_nth _ _ _ H). reflexivity. Qed.
  Lemma plain_start w : Forall (fun c => ~ reserved c) w -> startswith w [quote_start] = false /\ startswith w [bracket_start] = false.
  Proof.
    intros H. destruct H as [|c w Hc H]; [split; reflexivity|]. rewrite !starts_one. split; apply N.eqb_neq; intros <-; apply Hc; [apply res_qs|apply res_bs].
  Qed.
  Lemma nested_ok Q ts : forall its, Forall2 (tok_enc U Q no_parts) its ts ->
    mapM (fun t => if startswith t [quote_start] then quote_block U tk Q t else Ok [t]) ts = Ok (map spell its).
  Proof.
    induction ts as [|t ts IH]; intros its F; inversion F as [|k ? its' ? Hk F']; subst; [reflexivity|]. cbn [mapM map]. rewrite (IH _ F'). destruct k as [w|p]; cbn [tok_enc spell] in *.
    - destruct Hk as [-> Hw]. destruct (plain_start w Hw) as [-> _]. reflexivity.
    - destruct Hk as [(n & inside & -> & Hn & ->)|(n & _ & [])]. unfold core at 1. cbn [app]. rewrite starts_one, N.eqb_refl. rewrite (quote_ok _ _ _ Hn). reflexivity.
  Qed.
  Lemma insert_ok Q B k w : tok_enc U Q (in_table Q B) k w -> insert_blocks U tk Q B w = Ok (spell k).
  Proof.
    unfold insert_blocks. destruct k as [x|p]; cbn [tok_enc spell].
    - intros [-> Hx]. destruct (plain_start x Hx) as [-> ->]. reflexivity.
    - intros [(n & inside & -> & Hn & ->)|(n & -> & it & its & Hn & F & ->)].
      + unfold core at 1. cbn [app]. rewrite starts_one, N.eqb_refl. apply quote_ok. exact Hn.
      + unfold core at 1 2. cbn [app]. rewrite !starts_one. change (N.eqb quote_start bracket_start) with false. change (N.eqb bracket_start bracket_start) with true. cbn [orb].
        rewrite core_inside, (int_str U OK). cbn [rbind]. rewrite (index_nth _ _ _ Hn). cbn [rbind]. rewrite (nested_ok _ _ _ F). cbn [rbind]. rewrite <- flat_map_concat_map. reflexivity.
  Qed.
  Lemma sentence_ok Q B ts : forall toks, Forall2 (tok_enc U Q (in_table Q B)) toks ts -> mapM (insert_blocks U tk Q B) ts = Ok (map spell toks).
  Proof. induction ts as [|t ts IH]; intros toks F; inversion F as [|k ? toks' ? Hk F']; subst; [reflexivity|]. cbn [mapM map]. rewrite (insert_ok _ _ _ _ Hk). cbn [rbind]. rewrite (IH _ F'). reflexivity. Qed.
  Lemma sentences_ok Q B ss : forall tss, Forall2 (Forall2 (tok_enc U Q (in_table Q B))) tss ss ->
    mapM (fun sent => let! parts := mapM (insert_blocks U tk Q B) sent in Ok (concat parts)) ss = Ok (map (flat_map spell) tss).
  Proof.
    induction ss as [|t ss IH]; intros tss F; inversion F as [|k ? tss' ? Hk F']; subst; [reflexivity|]. cbn [mapM map]. rewrite (sentence_ok _ _ _ _ Hk). cbn [rbind]. rewrite (IH _ F'). cbn [rbind].
    rewrite <- flat_map_concat_map. reflexivity.
  Qed.
  Lemma words_marked st en : u_space U st = false -> u_space U en = false -> forall ps tl n p q,
    words (marked st en n (cps U p ps) (collapse U q tl)) = words (marked st en n ps tl).
  Proof.
    intros Hs He. induction ps as [|[pre ins] ps IH]; intros tl n p q; cbn [cps marked]; [apply (words_collapsed U OK)|]. rewrite !(words_mark U OK) by assumption. rewrite (words_collapsed U OK), IH. reflexivity.
  Qed.
  Lemma cps_snd p ps : map snd (cps U p ps) = map (collapse U false) (map snd ps).
  Proof. revert p. induction ps as [|[pre ins] ps IH]; intros p; cbn; [reflexivity|]. rewrite IH. reflexivity. Qed.
  Lemma paren_outside : outside 40%N /\ outside 41%N.
  Proof. unfold outside, space, reserved, quote_start, quote_end, bracket_start, bracket_end. cbn [In]. repeat split; try discriminate; try (intros H; repeat destruct H as [H|H]; discriminate H || destruct H); lia. Qed.

  (** one block *)
  Lemma tok_ender Q B k w : tok_enc U Q (in_table Q B) k w -> ((exists x, k = Word x /\ ends_sentence x) <-> ends_sentence w).
  Proof.
    intros H. assert (NC : forall st en n, reserved st -> ~ ends_sentence (core st en n)).
    { intros st en n Hs [_ F]. unfold core in F. cbn [app] in F. inversion F as [|? ? Hi _]; subst. unfold reserved, quote_start, quote_end, bracket_start, bracket_end in Hs. cbn in Hs, Hi. intuition congruence. }
    destruct k as [x|p]; cbn [tok_enc] in H.
    - destruct H as [-> _]. split; [intros (y & E & Hy); injection E as ->; exact Hy|eauto].
    - split; [intros (y & E & _); discriminate|]. intros He. exfalso. destruct H as [(n & ins & -> & _)|(n & -> & _)]; revert He; apply NC; [apply res_qs|apply res_bs].
  Qed.
  Lemma tok_para Q B k w : tok_enc U Q (in_table Q B) k w -> (k = Word paragraph <-> w = paragraph).
  Proof.
    intros H. destruct k as [x|p]; cbn [tok_enc] in H.
    - destruct H as [-> _]. split; [intros E; injection E as ->; reflexivity|intros ->; reflexivity].
    - split; [discriminate|]. intros ->. exfalso. destruct H as [(n & ins & E & _)|(n & E & _)]; discriminate E.
  Qed.
  Lemma block_ok Q B b b1 b2 n1 ps1 tl1 n2 ps2 tl2 :
    Forall (fun c => ~ reserved c) b -> ~ In 10%N b ->
    parts_of 34%N 34%N b ps1 tl1 -> b1 = collapse U false (marked quote_start quote_end n1 ps1 tl1) ->
    (forall k x, nth_error (map snd ps1) k = Some x -> nth_error Q (n1 + k) = Some x) ->
    parts_of 40%N 41%N b1 ps2 tl2 -> b2 = collapse U false (marked bracket_start bracket_end n2 ps2 tl2) ->
    (forall k x, nth_error (map snd ps2) k = Some x -> nth_error B (n2 + k) = Some x) ->
    exists items toks tss, items_of b items /\ toks_of U items toks /\ sentences_of_toks toks tss /\
      mapM (fun sent => let! parts := mapM (insert_blocks U tk Q B) sent in Ok (concat parts)) (split_sentences U (words b2)) = Ok (map (flat_map spell) tss).
  Proof.
    intros Hres Hnl P1 E1 HQ P2 E2 HB. rewrite Forall_forall in Hres. set (M := marked quote_start quote_end n1 ps1 tl1) in *.
    assert (EM : enc Q no_brackets (chunked Ch Quoted ps1 tl1) M).
    { apply enc_marked_quotes; [| |exact HQ].
      - apply Forall_forall. intros p Hp. apply Forall_forall. intros d Hd. apply Hres. eapply parts_in; [exact P1|]. left. exists p. auto.
      - apply Forall_forall. intros d Hd. apply Hres. eapply parts_in; [exact P1|]. right. exact Hd. }
    assert (HM : ~ In 10%N M).
    { intros F. apply marked_in in F. destruct F as [(p & Hp & F)|[F|(k & F)]].
      - apply Hnl. eapply parts_in; [exact P1|]. left. exists p. auto.
      - apply Hnl. eapply parts_in; [exact P1|]. right. exact F.
      - apply mark_chars in F. unfold space, quote_start, quote_end in F. lia. }
    (* the bracketed parts of the text before its spaces are collapsed *)
    pose proof (pieces_scan U false (re_block 40%N 41%N) M eq_refl) as PM. apply block_scan in PM; [|exact HM]. destruct PM as [P3 _].
    set (ps3 := map part (fst (pieces U false (re_block 40%N 41%N) M))) in *. set (tl3 := snd (pieces U false (re_block 40%N 41%N) M)) in *. clearbody ps3 tl3.
    assert (S40 : u_space U 40%N = false) by (rewrite (ok_space _ OK) by reflexivity; reflexivity). assert (S41 : u_space U 41%N = false) by (rewrite (ok_space _ OK) by reflexivity; reflexivity).
    pose proof (collapse_parts U OK 40%N 41%N M ps3 tl3 S40 S41 P3 false) as P4. rewrite <- E1 in P4. destruct (parts_fun _ _ _ _ _ _ _ P2 P4) as [-> ->]. clear P2 P4.
    destruct (enc_parts Q no_brackets 40%N 41%N (proj1 paren_outside) (proj2 paren_outside) M ps3 tl3 P3 _ EM) as (ips & itl & P5 & F & L).
    set (BR := fun (m : nat) (inside : list item) => exists it it0, nth_error B m = Some it /\ words it = words it0 /\ enc Q no_brackets inside it0).
    assert (EF : enc Q BR (chunked (fun i => i) Bracketed ips itl) (marked bracket_start bracket_end n2 ps3 tl3)).
    { apply enc_marked_brackets; [exact F|exact L|]. intros k x Hk. 
      rewrite cps_snd in HB. clear - HB Hk F OK. revert n2 k HB Hk. induction F as [|[ipre iins] [pre ins] ips ps3 [F1 F2] F IH]; intros n2 k HB Hk; [destruct k; discriminate|]. destruct k as [|k]; cbn [map nth_error snd] in Hk.
      - injection Hk as <-. exists (collapse U false ins), ins. split; [apply HB; reflexivity|]. split; [apply (words_collapsed U OK)|exact F2].
      - rewrite <- Nat.add_succ_comm. apply IH; [|exact Hk]. intros k' y Hy. rewrite Nat.add_succ_comm. apply HB. exact Hy. }
    assert (HT : forall m inside, BR m inside -> exists its, toks_of U inside its /\ in_table Q B m ([[40%N]] ++ flat_map spell its ++ [[41%N]])).
    { intros m inside (it & it0 & H1 & H2 & H3). destruct (enc_toks U OK Q no_brackets no_parts ltac:(intros ? ? []) _ _ _ (le_n _) H3) as (its & T & FT). exists its. split; [exact T|]. exists it, its. rewrite H2. auto. }
    destruct (enc_toks U OK Q BR (in_table Q B) HT _ _ _ (le_n _) EF) as (toks & T & FT).
    assert (W : words b2 = words (marked bracket_start bracket_end n2 ps3 tl3)).
    { rewrite E2, (words_collapsed U OK). apply words_marked; apply (reserved_not_space U OK); [apply res_bs|apply res_be]. }
    rewrite W. assert (C : sentences (words (marked bracket_start bracket_end n2 ps3 tl3)) (split_sentences U (words (marked bracket_start bracket_end n2 ps3 tl3)))) by (apply (split_loop_spec U _ []); constructor).
    destruct (cut_transport (tok_enc U Q (in_table Q B)) _ _ _ _ (fun k w => tok_ender Q B k w) (fun k w => tok_para Q B k w) _ _ C _ FT) as (tss & C' & F').
    exists (chunked (fun i => i) Bracketed ips itl), toks, tss. split; [|split; [exact T|split; [exact C'|apply sentences_ok; exact F']]].
    exists ps1, tl1, ips, itl. auto.
  Qed.

  Lemma split_blocks_in text blocks : split_blocks U text blocks -> forall b c, In b blocks -> In c b -> In c text.
  Proof.
    induction 1 as [b H|b s rest bs H1 H2 H3 H4 H5 H IH]; intros b' c Hb Hc.
    - destruct Hb as [<-|[]]. exact Hc.
    - rewrite !in_app_iff. destruct Hb as [<-|Hb]; [auto|]. right. right. eauto.
  Qed.
  Lemma sanitized_in b c : In c (sanitize U sz_sanitization b) -> In c b \/ c = 182%N \/ c = space.
  Proof.
    rewrite (sanitize_block U OK). intros H. apply join_in in H. destruct H as [->|(w & Hw & Hc)]; [auto|]. pose proof (words_in _ _ _ _ Hw Hc) as H. apply close_in in H. tauto.
  Qed.
  Lemma sanitized_no_nl b : ~ In 10%N (sanitize U sz_sanitization b).
  Proof.
    rewrite (sanitize_block U OK). intros H. apply join_in in H. destruct H as [H|(w & Hw & Hc)]; [discriminate|].
    pose proof (split_ws_words (u_space U) (close_quotes b)) as F. rewrite Forall_forall in F. destruct (F _ Hw) as [_ Fw]. rewrite Forall_forall in Fw. specialize (Fw _ Hc). rewrite (ok_space _ OK) in Fw by reflexivity. discriminate.
  Qed.
  Theorem sentencize_restored text : (forall c, In c text -> ~ reserved c) ->
    exists blocks bss, split_blocks U text blocks /\ Forall2 (block_sentences U) blocks bss /\ sentencize U tk text = Ok (concat bss).
  Proof.
    intros Hres. pose proof (split_newlines U OK text) as SB. set (blocks := re_split U false re_newline text) in *. exists blocks.
    assert (Hin : forall b, In b blocks -> Forall (fun c => ~ reserved c) (sanitize U sz_sanitization b)).
    { intros b Hb. apply Forall_forall. intros c Hc. apply sanitized_in in Hc. destruct Hc as [Hc|[-> | ->]].
      - apply Hres. eapply split_blocks_in; eauto.
      - unfold reserved, quote_start, quote_end, bracket_start, bracket_end. cbn. intros H. repeat destruct H as [H|H]; discriminate H || destruct H.
      - unfold reserved, quote_start, quote_end, bracket_start, bracket_end. cbn. intros H. repeat destruct H as [H|H]; discriminate H || destruct H. }
    unfold sentencize. fold blocks. change re_quote with (re_block 34%N 34%N). change re_bracket with (re_block 40%N 41%N).
    destruct (find_all_spec 34%N 34%N quote_start quote_end (map (sanitize U sz_sanitization) blocks) []) as (ext1 & _ & F1).
    { apply Forall_forall. intros b Hb. apply in_map_iff in Hb. destruct Hb as (b0 & <- & _). apply sanitized_no_nl. }
    destruct (find_all U (re_block 34%N 34%N) quote_start quote_end (map (sanitize U sz_sanitization) blocks) []) as [blocks1 Q]. cbn [fst snd] in F1.
    destruct (find_all_spec 40%N 41%N bracket_start bracket_end blocks1 []) as (ext2 & _ & F2).
    { apply Forall_forall. intros b Hb Hc. destruct (Forall2_in_r _ _ _ F1 _ Hb) as (b0 & _ & n & ps & tl & _ & -> & _). apply (collapse_space U) in Hc; [discriminate|]. rewrite (ok_space _ OK) by reflexivity. reflexivity. }
    destruct (find_all U (re_block 40%N 41%N) bracket_start bracket_end blocks1 []) as [blocks2 B]. cbn [fst snd] in F2.
    assert (K : forall bs bs1 bs2, (forall b, In b bs -> In b blocks) ->
      Forall2 (fun b b' => exists n ps tl, parts_of 34%N 34%N b ps tl /\ b' = collapse U false (marked quote_start quote_end n ps tl) /\ (forall k x, nth_error (map snd ps) k = Some x -> nth_error Q (n + k) = Some x)) (map (sanitize U sz_sanitization) bs) bs1 ->
      Forall2 (fun b b' => exists n ps tl, parts_of 40%N 41%N b ps tl /\ b' = collapse U false (marked bracket_start bracket_end n ps tl) /\ (forall k x, nth_error (map snd ps) k = Some x -> nth_error B (n + k) = Some x)) bs1 bs2 ->
      exists bss, Forall2 (block_sentences U) bs bss /\
        mapM (fun block => let! tokens := tk block in mapM (fun sent => let! parts := mapM (insert_blocks U tk Q B) sent in Ok (concat parts)) (split_sentences U tokens)) bs2 = Ok bss).
    { induction bs as [|b bs IH]; intros bs1 bs2 Hb G1 G2; cbn [map] in G1; inversion G1 as [|? b1 ? bs1' (n1 & ps1 & tl1 & P1 & E1 & HQ) G1']; subst; inversion G2 as [|? b2 ? bs2' (n2 & ps2 & tl2 & P2 & E2 & HB) G2']; subst.
      - exists []. split; [constructor|reflexivity].
      - destruct (IH bs1' bs2' ltac:(intros; apply Hb; right; assumption) G1' G2') as (bss & FB & EB).
        destruct (block_ok Q B _ _ _ n1 ps1 tl1 n2 ps2 tl2 (Hin b (Hb b (or_introl eq_refl))) (sanitized_no_nl b) P1 eq_refl HQ P2 eq_refl HB) as (items & toks & tss & I1 & I2 & I3 & I4).
        exists (map (flat_map spell) tss :: bss). split; [constructor; [|exact FB]|].
        + exists items, toks, tss. rewrite <- (sanitize_block U OK). auto.
        + cbn [mapM]. cbn [rbind] in *. rewrite I4. cbn [rbind]. rewrite EB. reflexivity. }
    destruct (K blocks blocks1 blocks2 (fun b H => H) F1 F2) as (bss & FB & EB). exists bss. split; [exact SB|]. split; [exact FB|]. rewrite EB. reflexivity.
  Qed.
End Restore.

(** ** texts without parts *)
Section Plain.
  Context (U : udb) (OK : udb_ok U).
  Notation words := (split_ws (u_space U)).
  Lemma collapse_joined ws : Forall (is_word U) ws -> collapse U false (join [space] ws) = join [space] ws.
  Proof.
    induction 1 as [|w ws [Hn Hw] H IH]; [reflexivity|]. destruct ws as [|x ws].
    - cbn [join]. rewrite <- (app_nil_r w) at 1. rewrite collapse_word by exact Hw. cbn. apply app_nil_r.
    - change (join [space] (w :: x :: ws)) with (w ++ space :: join [space] (x :: ws)). rewrite collapse_word by exact Hw. f_equal. cbn [collapse]. change (u_space U space) with (u_space U 32%N). rewrite (space_is_space U OK). cbn [app]. f_equal.
      rewrite collapse_true; [exact IH|]. intros c y E. inversion H as [|? ? [Hx1 Hx2] _]; subst. destruct x as [|d x]; [congruence|]. inversion Hx2; subst. destruct ws; cbn in E; injection E as <- _; assumption.
  Qed.
  Lemma parts_absent {A} (o c : A) t ps tl : ~ In o t -> parts_of o c t ps tl -> ps = [] /\ tl = t.
  Proof. intros Ho H. destruct H as [t Hn|pre inside rest ps tl Hp Hi H]; [auto|]. exfalso. apply Ho. rewrite !in_app_iff. cbn. auto. Qed.
  Lemma find_all_plain o c st en : forall blocks ctr, Forall (fun b => ~ In o b /\ ~ In 10%N b /\ collapse U false b = b) blocks -> find_all U (re_block o c) st en blocks ctr = (blocks, ctr).
  Proof.
    induction 1 as [|b bs (Ho & Hn & Hc) H IH]; cbn [find_all]; [reflexivity|]. destruct (find_blocks_spec U o c st en b ctr Hn) as (ps & tl & P & ->). apply parts_absent in P; [|exact Ho]. destruct P as [-> ->]. cbn [map marked]. rewrite app_nil_r, Hc.
    rewrite IH. reflexivity.
  Qed.
  Lemma close_none s : ~ In 34%N s -> close_quotes s = s.
  Proof.
    intros H. rewrite <- (app_nil_r s) at 1. rewrite close_prefix; [cbn; apply app_nil_r|]. intros x z s' -> Hz E. rewrite app_nil_r in E. subst z. apply H. rewrite in_app_iff. cbn. auto.
  Qed.
  Lemma span_space s r s' r' : s ++ r = s' ++ r' -> (forall c, In c s -> u_space U c = true) -> (forall c, In c s' -> u_space U c = true) ->
    (forall c q, r = c :: q -> u_space U c = false) -> (forall c q, r' = c :: q -> u_space U c = false) -> s = s' /\ r = r'.
  Proof.
    revert s'. induction s as [|x s IH]; intros [|y s'] E H H' O O'; cbn [app] in E; [auto| | |].
    - exfalso. specialize (O _ _ E). rewrite (H' y) in O by (left; reflexivity). discriminate.
    - exfalso. specialize (O' _ _ (eq_sym E)). rewrite (H x) in O' by (left; reflexivity). discriminate.
    - injection E as <- E. destruct (IH s' E) as [-> ->]; auto; intros c Hc; [apply H|apply H']; right; exact Hc.
  Qed.
  Lemma block_span b s rest b' s' rest' : b ++ s ++ rest = b' ++ s' ++ rest' ->
    (forall c, In c b' -> ~ newline c) -> (forall b0 c, b' = b0 ++ [c] -> u_space U c = false) ->
    (forall c, In c s -> u_space U c = true) -> (exists c, In c s /\ newline c) -> (forall c q, rest = c :: q -> u_space U c = false) ->
    length b <= length b' -> b = b'.
  Proof.
    intros E Hb' He' Hs (nl & Hnl & Hn) Hr Hlen. apply app_eq_app in E. destruct E as (l & [[-> E]|[-> E]]); [rewrite app_length in Hlen; destruct l; [rewrite app_nil_r; reflexivity|cbn in Hlen; lia]|].
    destruct l as [|x l]; [rewrite app_nil_r; reflexivity|]. exfalso. destruct (exists_last (l := x :: l)) as (l0 & c & El); [discriminate|]. rewrite El in *. assert (Hc : u_space U c = false) by (apply (He' (b ++ l0) c); rewrite app_assoc; reflexivity).
    (* the last character of l is not whitespace: l is not inside s *)
    apply app_eq_app in E. destruct E as (k & [[E1 _]|[E1 _]]).
    - subst s. rewrite (Hs c) in Hc; [discriminate|]. rewrite !in_app_iff. cbn. auto.
    - apply (Hb' nl); [|exact Hn]. rewrite E1, !in_app_iff. auto.
  Qed.
  Lemma split_blocks_fun text bs bs' : split_blocks U text bs -> split_blocks U text bs' -> bs = bs'.
  Proof.
    intros H; revert bs'. induction H as [b Hb|b s rest bs H1 H2 H3 H4 H5 H IH]; intros bs' H'.
    - destruct H' as [b Hb'|b' s' rest' bs' H1' H2' H3' H4' H5' H']; [reflexivity|]. destruct H4' as (c & Hc & Hn). exfalso. apply (Hb c); [|exact Hn]. rewrite !in_app_iff. auto.
    - remember (b ++ s ++ rest) as t eqn:Et. destruct H' as [b' Hb'|b' s' rest' bs' H1' H2' H3' H4' H5' H'].
      + destruct H4 as (c & Hc & Hn). exfalso. apply (Hb' c); [|exact Hn]. subst. rewrite !in_app_iff. auto.
      + assert (b = b') as <-.
        { destruct (Nat.le_ge_cases (length b) (length b')); [eapply (block_span b s rest b' s' rest'); eauto|symmetry; eapply (block_span b' s' rest' b s rest); eauto]. }
        apply app_inv_head in Et. apply span_space in Et; auto. destruct Et as [_ ->]. f_equal. apply IH. exact H'.
  Qed.
  Theorem sentencize_plain tk text blocks tss : (forall c, In c text -> c <> 34%N /\ c <> 40%N) -> split_blocks U text blocks ->
    Forall2 (fun b ts => tk (join [space] (words b)) = Ok ts /\ Forall (fun t => forall c t', t = c :: t' -> ~ reserved c) ts) blocks tss ->
    exists sss, Forall2 sentences tss sss /\ sentencize U tk text = Ok (concat sss).
  Proof.
    intros Hq SB F. pose proof (split_newlines U OK text) as SB'. pose proof (split_blocks_fun _ _ _ SB SB') as E. unfold sentencize. rewrite <- E. clear SB' E.
    assert (SE : forall b, In b blocks -> sanitize U sz_sanitization b = join [space] (words b)).
    { intros b Hb. rewrite (sanitize_block U OK), close_none; [reflexivity|]. intros Hc. eapply split_blocks_in in Hc; [|exact SB|exact Hb]. apply Hq in Hc. tauto. }
    rewrite (map_ext_in _ _ _ SE).
    assert (OKB : forall o, o = 34%N \/ o = 40%N -> Forall (fun b => ~ In o b /\ ~ In 10%N b /\ collapse U false b = b) (map (fun b => join [space] (words b)) blocks)).
    { intros o Ho. apply Forall_forall. intros b Hb. apply in_map_iff in Hb. destruct Hb as (b0 & <- & Hb0). split; [|split].
      - intros Hc. apply join_in in Hc. destruct Hc as [Hc|(w & Hw & Hc)]; [destruct Ho; subst; discriminate|]. pose proof (words_in _ _ _ _ Hw Hc) as Hi. eapply split_blocks_in in Hi; [|exact SB|exact Hb0]. apply Hq in Hi. destruct Ho; subst; tauto.
      - rewrite <- SE by exact Hb0. apply (sanitized_no_nl U OK).
      - apply collapse_joined. apply words_are_words. }
    change re_quote with (re_block 34%N 34%N). change re_bracket with (re_block 40%N 41%N). rewrite find_all_plain by (apply OKB; auto). rewrite find_all_plain by (apply OKB; auto).
    clear SE OKB SB Hq. 
    assert (K : exists sss, Forall2 sentences tss sss /\ mapM (fun block => let! tokens := tk block in mapM (fun sent => let! parts := mapM (insert_blocks U tk [] []) sent in Ok (concat parts)) (split_sentences U tokens)) (map (fun b => join [space] (words b)) blocks) = Ok sss).
    { induction F as [|b ts blocks tss [Hb Ht] F IH]; [exists []; split; [constructor|reflexivity]|]. destruct IH as (sss & F2 & E2). exists (split_sentences U ts :: sss). split; [constructor; [apply (split_loop_spec U ts []); constructor|exact F2]|].
      cbn [map mapM]. rewrite Hb. cbn [rbind].
      assert (G : mapM (fun sent => let! parts := mapM (insert_blocks U tk [] []) sent in Ok (concat parts)) (split_sentences U ts) = Ok (split_sentences U ts)).
      { assert (I : forall sent, In sent (split_sentences U ts) -> forall t, In t sent -> In t ts).
        { intros sent Hs t Hi. assert (In t (concat (split_sentences U ts))) as Hc by (apply in_concat; eauto). rewrite (sentences_tokens ts) in Hc by (apply (split_loop_spec U ts []); constructor). apply filter_In in Hc. tauto. }
        rewrite (mapM_total _ (fun s => s)); [rewrite map_id; reflexivity|]. intros sent Hs. rewrite (mapM_total _ (fun t => [t])).
        - cbn [rbind]. f_equal. clear. induction sent as [|t s IH]; [reflexivity|]. cbn. rewrite IH. reflexivity.
        - intros t Hi. apply (I sent Hs) in Hi. rewrite Forall_forall in Ht. specialize (Ht _ Hi). unfold insert_blocks. destruct t as [|c t]; [reflexivity|]. specialize (Ht c t eq_refl). rewrite !starts_one.
          destruct (N.eqb_spec quote_start c); [subst; exfalso; apply Ht; apply res_qs|]. destruct (N.eqb_spec bracket_start c); [subst; exfalso; apply Ht; apply res_bs|]. reflexivity. }
      rewrite G. cbn [rbind]. rewrite E2. reflexivity. }
    destruct K as (sss & F2 & E2). exists sss. split; [exact F2|]. change (rbind (mapM (fun block => let! tokens := tk block in mapM (fun sent => let! parts := mapM (insert_blocks U tk [] []) sent in Ok (concat parts)) (split_sentences U tokens)) (map (fun b => join [space] (words b)) blocks)) (fun l => Ok (concat l)) = Ok (concat sss)). rewrite E2. reflexivity.
  Qed.
End Plain.

(** ** the specification determines the sentences *)
Section Determined.
  Context (U : udb).
  Lemma toks_inv i ts : toks_of U i ts ->
    (i = [] /\ ts = []) \/
    (exists c l, i = Ch c :: l /\ u_space U c = true /\ toks_of U l ts) \/
    (exists w l ts', i = map Ch w ++ l /\ ts = Word w :: ts' /\ w <> [] /\ (forall c, In c w -> u_space U c = false) /\ (forall c l', l = Ch c :: l' -> u_space U c = true) /\ toks_of U l ts') \/
    (exists inside l ts', i = Quoted inside :: l /\ ts = Part ([[34%N]] ++ split_ws (u_space U) inside ++ [[34%N]]) :: ts' /\ toks_of U l ts') \/
    (exists inside its l ts', i = Bracketed inside :: l /\ ts = Part ([[40%N]] ++ flat_map spell its ++ [[41%N]]) :: ts' /\ toks_of U inside its /\ toks_of U l ts').
  Proof. destruct 1; [left; auto|right; left|right; right; left|right; right; right; left|right; right; right; right]; eauto 12. Qed.
  Lemma toks_fun i ts ts' : toks_of U i ts -> toks_of U i ts' -> ts = ts'.
  Proof.
    assert (NW : forall w l c i', map Ch w ++ l = c :: i' -> w <> [] -> exists d, c = Ch d /\ In d w).
    { intros [|d w] l c i' E Hw; [congruence|]. injection E as <- _. exists d. split; [reflexivity|left; reflexivity]. }
    intros H; revert ts'. induction H as [|c l ts Hc H IH|w l ts Hn Hw Hl H IH|inside l ts H IH|inside its l ts H1 IH1 H2 IH2]; intros ts' H'; apply toks_inv in H';
      destruct H' as [[E ->]|[(c' & l' & E & Hc' & H')|[(w' & l' & ts2 & E & -> & Hn' & Hw' & Hl' & H')|[(ins' & l' & ts2 & E & -> & H')|(ins' & its' & l' & ts2 & E & -> & H3 & H4)]]]].
    - reflexivity.
    - discriminate.
    - destruct w'; [congruence|discriminate].
    - discriminate.
    - discriminate.
    - discriminate.
    - injection E as <- <-. auto.
    - destruct (NW _ _ _ _ (eq_sym E) Hn') as (d & Ed & Hd). injection Ed as <-. rewrite (Hw' _ Hd) in Hc. discriminate.
    - discriminate.
    - discriminate.
    - destruct w; [congruence|discriminate].
    - destruct (NW _ _ _ _ E Hn) as (d & Ed & Hd). injection Ed as <-. rewrite (Hw _ Hd) in Hc'. discriminate.
    - assert (w = w' /\ l = l') as [<- <-].
      { clear - E Hw Hw' Hl Hl'. revert w' E Hw'. induction w as [|c w IH]; intros [|c' w'] E Hw'; cbn [map app] in E.
        - auto.
        - exfalso. specialize (Hl _ _ E). rewrite (Hw' c') in Hl by (left; reflexivity). discriminate.
        - exfalso. specialize (Hl' _ _ (eq_sym E)). rewrite (Hw c) in Hl' by (left; reflexivity). discriminate.
        - injection E as -> E. destruct (IH (fun d Hd => Hw d (or_intror Hd)) w' E (fun d Hd => Hw' d (or_intror Hd))) as [-> ->]. auto. }
      f_equal. auto.
    - destruct (NW _ _ _ _ E Hn) as (d & Ed & _). discriminate.
    - destruct (NW _ _ _ _ E Hn) as (d & Ed & _). discriminate.
    - discriminate.
    - discriminate.
    - destruct (NW _ _ _ _ (eq_sym E) Hn') as (d & Ed & _). discriminate.
    - injection E as <- <-. f_equal. auto.
    - discriminate.
    - discriminate.
    - discriminate.
    - destruct (NW _ _ _ _ (eq_sym E) Hn') as (d & Ed & _). discriminate.
    - discriminate.
    - injection E as <- <-. rewrite (IH1 _ H3), (IH2 _ H4). reflexivity.
  Qed.
  Lemma items_fun text i i' : items_of text i -> items_of text i' -> i = i'.
  Proof.
    intros (q & qt & b & bt & H1 & H2 & ->) (q' & qt' & b' & bt' & H1' & H2' & ->). destruct (parts_fun _ _ _ _ _ _ _ H1 H1') as [<- <-]. destruct (parts_fun _ _ _ _ _ _ _ H2 H2') as [<- <-]. reflexivity.
  Qed.
  Theorem block_sentences_fun b ss ss' : block_sentences U b ss -> block_sentences U b ss' -> ss = ss'.
  Proof.
    intros (i & t & s & H1 & H2 & H3 & ->) (i' & t' & s' & H1' & H2' & H3' & ->). rewrite <- (items_fun _ _ _ H1 H1') in H2'. rewrite <- (toks_fun _ _ _ H2 H2') in H3'. f_equal.
    eapply cut_fun; [|exact H3|exact H3']. intros k (w & -> & He) E. injection E as E. exact (ender_not_para _ He E).
  Qed.
End Determined.
