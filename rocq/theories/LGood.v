(** What the rewriting rules keep of a text: its content, its marks and the whitespace around the marks. *)
From Coq Require Import Ascii String.
From Coq Require Import List NArith ZArith Arith Bool Lia.
From Verif Require Import PyBase Regex MTokenizer SText STok LBase LText LRegex LSub LSentencizer LRestore LTok LTokWords LDecode.
Import ListNotations.
Local Open Scope nat_scope.

Definition has (part s : str) : Prop := exists x y, s = x ++ part ++ y.
(** the bodies of the placeholders of symbols *)
Definition bodies : list str := [lit "NSD"; lit "NSGE"; lit "NSLE"; lit "RNSGE"; lit "RNSLE"].
Definition body_chars : list char := lit "NSDGELR".

Section Good.
  Context (U : udb).
  Definition isp (x : dch) : bool := match x with C c => u_space U c | M _ => false end.
  Definition nsp1 (x : dch) : str := match x with C c => if u_space U c then [] else [c] | M m => m end.
  Definition nsp (d : list dch) : str := flat_map nsp1 d.
  Definition marks (d : list dch) : list str := flat_map (fun x => match x with C _ => [] | M m => [m] end) d.
  Lemma nsp_app a b : nsp (a ++ b) = nsp a ++ nsp b.
  Proof. apply flat_map_app. Qed.
  Lemma marks_app a b : marks (a ++ b) = marks a ++ marks b.
  Proof. apply flat_map_app. Qed.
  Lemma marks_C s : marks (map C s) = [].
  Proof. induction s; [reflexivity|assumption]. Qed.
  Lemma nsp_C s : nsp (map C s) = filter (fun c => negb (u_space U c)) s.
  Proof. induction s as [|c s IH]; [reflexivity|]. cbn. destruct (u_space U c); cbn; [exact IH|]. f_equal. exact IH. Qed.

  (** *** marks stand alone *)
  Inductive state := QS | QN | QM.
  Definition next (q : state) (x : dch) : option state :=
    match x with
    | C c => if u_space U c then Some QS else match q with QM => None | _ => Some QN end
    | M _ => match q with QS => Some QM | _ => None end
    end.
  Fixpoint run (q : state) (d : list dch) : option state :=
    match d with
    | [] => Some q
    | x :: d' => match next q x with Some q' => run q' d' | None => None end
    end.
  Lemma run_app q a b : run q (a ++ b) = match run q a with Some q' => run q' b | None => None end.
  Proof. revert q. induction a as [|x a IH]; intros q; cbn; [reflexivity|]. destruct (next q x); [apply IH|reflexivity]. Qed.
  Definition better (q' q : state) : Prop := q' = q \/ q' = QS.
  Lemma run_better d : forall q q' r, better q' q -> run q d = Some r -> exists r', run q' d = Some r' /\ better r' r.
  Proof.
    induction d as [|x d IH]; intros q q' r Hb H; cbn in *.
    - injection H as <-. eauto.
    - destruct (next q x) as [q1|] eqn:E; [|discriminate]. assert (exists q2, next q' x = Some q2 /\ better q2 q1) as (q2 & -> & Hb2).
      { destruct Hb as [->| ->]; [exists q1; split; [exact E|left; reflexivity]|]. destruct x as [c|m]; cbn in *.
        - destruct (u_space U c); [injection E as <-; eexists; split; [reflexivity|left; reflexivity]|]. destruct q; try discriminate; injection E as <-; eexists; split; try reflexivity; left; reflexivity.
        - destruct q; try discriminate; injection E as <-; eexists; split; [reflexivity|left; reflexivity]. }
      eapply IH; eauto.
  Qed.
  Definition iso (d : list dch) : Prop := run QS d <> None.
  Lemma run_spaces q d : d <> [] -> forallb isp d = true -> run q d = Some QS.
  Proof.
    intros Hn H. destruct d as [|x d]; [congruence|]. clear Hn. revert q x H. induction d as [|y d IH]; intros q x H; cbn [forallb] in H; apply andb_true_iff in H; destruct H as [H1 H2]; cbn [run].
    - destruct x as [c|]; cbn in *; [rewrite H1; reflexivity|discriminate].
    - destruct x as [c|]; cbn [isp next] in *; [rewrite H1|discriminate]. apply (IH QS y H2).
  Qed.
  Lemma run_start_space q q' x d : isp x = true -> run q (x :: d) = run q' (x :: d).
  Proof. intros H. cbn. destruct x as [c|]; cbn in *; [rewrite H; reflexivity|discriminate]. Qed.

  (** *** the rewriting of a part *)
  Definition starts (d : list dch) : Prop := exists x d', d = x :: d' /\ isp x = true.
  Definition ends (d : list dch) : Prop := exists d' x, d = d' ++ [x] /\ isp x = true.
  Definition only_chars (d : list dch) : Prop := Forall (fun x => exists c, x = C c /\ c <> 95%N) d.
  Record rb (w w' : list dch) : Prop := {
    rb_w : only_chars w; rb_w' : only_chars w'; rb_ne : w <> []; rb_ne' : w' <> [];
    rb_start : starts w -> starts w'; rb_end : ends w -> ends w'
  }.
  (** same content, or a part without the letters of placeholders becomes another one *)
  Definition rsame (w w' : list dch) : Prop := rb w w' /\ nsp w' = nsp w.
  Definition rany (w w' : list dch) : Prop := rb w w' /\ exists u x x' v, nsp w = u ++ x ++ v /\ nsp w' = u ++ x' ++ v /\ (x = x' \/ (x' <> [] /\ Forall (fun c => ~ In c body_chars) x')).
  Lemma rsame_any w w' : rsame w w' -> rany w w'.
  Proof. intros [H E]. split; [exact H|]. exists (nsp w), [], [], []. rewrite !app_nil_r. auto. Qed.
  Lemma rewr_impl (R R' : list dch -> list dch -> Prop) d d' : (forall w w', R w w' -> R' w w') -> rewr R d d' -> rewr R' d d'.
  Proof. intros H K. induction K; constructor; auto. Qed.

  Lemma only_chars_run w : only_chars w -> w <> [] -> forall q, (q = QM -> starts w) -> run q w = Some QS /\ ends w \/ run q w = Some QN /\ ~ ends w.
  Proof.
    intros H. induction H as [|x w (c & -> & Hc) H IH]; intros Hn q Hq; [congruence|]. clear Hn.
    destruct w as [|y w].
    - cbn. destruct (u_space U c) eqn:E.
      + left. split; [reflexivity|]. exists [], (C c). auto.
      + right. split; [destruct q; try reflexivity; destruct (Hq eq_refl) as (z & d' & Ez & Hz); injection Ez as <- _; cbn in Hz; congruence|]. intros (d' & z & Ez & Hz). destruct d' as [|? [|]]; [injection Ez as <-; cbn in Hz; congruence|discriminate|discriminate].
    - assert (EE : ends (C c :: y :: w) <-> ends (y :: w)).
      { split; intros (d' & z & Ez & Hz).
        - destruct d' as [|z' d']; [discriminate|]. injection Ez as _ Ez. exists d', z. auto.
        - exists (C c :: d'), z. rewrite Ez. auto. }
      rewrite EE. cbn [run]. destruct (u_space U c) eqn:E.
      + cbn [next]. rewrite E. apply IH; [discriminate|discriminate].
      + cbn [next]. rewrite E. assert (q <> QM) as Hq2 by (intros ->; destruct (Hq eq_refl) as (z & d' & Ez & Hz); injection Ez as <- _; cbn in Hz; congruence).
        destruct q; try congruence; apply IH; discriminate.
  Qed.
  Lemma rb_run w w' q r : rb w w' -> run q w = Some r -> forall q', better q' q -> exists r', run q' w' = Some r' /\ better r' r.
  Proof.
    intros [W W' N N' S E] H q' Hb.
    assert (Hq : q = QM -> starts w). { intros ->. destruct w as [|x w]; [congruence|]. cbn in H. inversion W as [|? ? (c & -> & _) _]; subst. cbn in H. destruct (u_space U c) eqn:Ec; [|discriminate]. exists (C c), w. auto. }
    assert (Hq' : q' = QM -> starts w'). { intros ->. destruct Hb as [<-|F]; [apply S; apply Hq; reflexivity|discriminate]. }
    destruct (only_chars_run w' W' N' q' Hq') as [[-> _]|[-> He]]; eexists; split; try reflexivity; [right; reflexivity|].
    destruct (only_chars_run w W N q Hq) as [[_ He2]|[E2 _]]; [exfalso; auto|]. rewrite H in E2. injection E2 as ->. left. reflexivity.
  Qed.
  Lemma rewr_run d d' : rewr rb d d' -> forall q q' r, better q' q -> run q d = Some r -> exists r', run q' d' = Some r' /\ better r' r.
  Proof.
    induction 1 as [d|a w w' b b' HR H IH]; intros q q' r Hb Hr; [eapply run_better; eauto|]. rewrite !run_app in *. destruct (run q a) as [q1|] eqn:E1; [|discriminate]. destruct (run_better a q q' q1 Hb E1) as (q1' & -> & B1).
    rewrite run_app in Hr |- *. destruct (run q1 w) as [q2|] eqn:E2; [|discriminate]. destruct (rb_run w w' q1 q2 HR E2 q1' B1) as (q2' & -> & B2). eapply IH; eauto.
  Qed.
  Lemma rewr_iso d d' : rewr rb d d' -> iso d -> iso d'.
  Proof. unfold iso. intros H Hi. destruct (run QS d) as [r|] eqn:E; [|congruence]. destruct (rewr_run d d' H QS QS r (or_introl eq_refl) E) as (r' & -> & _). discriminate. Qed.
  Lemma only_marks w : only_chars w -> marks w = [].
  Proof. induction 1 as [|x w (c & -> & _) H IH]; [reflexivity|exact IH]. Qed.
  Lemma rewr_marks d d' : rewr rb d d' -> marks d' = marks d.
  Proof. induction 1 as [d|a w w' b b' HR H IH]; [reflexivity|]. rewrite !marks_app, IH, (only_marks w (rb_w _ _ HR)), (only_marks w' (rb_w' _ _ HR)). reflexivity. Qed.
  Definition no95 (d : list dch) : Prop := ~ In (C 95%N) d.
  Lemma rewr_no95 d d' : rewr rb d d' -> no95 d -> no95 d'.
  Proof.
    unfold no95. induction 1 as [d|a w w' b b' HR H IH]; intros Hn; [exact Hn|]. rewrite !in_app_iff in *. intros [Hi|[Hi|Hi]]; [tauto| |apply IH; tauto]. pose proof (rb_w' _ _ HR) as F. unfold only_chars in F. rewrite Forall_forall in F. destruct (F _ Hi) as (c & E & Hc). injection E as <-. congruence.
  Qed.
  Lemma rewr_nsp d d' : rewr rsame d d' -> nsp d' = nsp d.
  Proof. induction 1 as [d|a w w' b b' [_ HR] H IH]; [reflexivity|]. rewrite !nsp_app, IH, HR. reflexivity. Qed.
  Definition noK (d : list dch) : Prop := forall k, In k bodies -> ~ has k (nsp d).
  Lemma body_in k c : In k bodies -> In c k -> In c body_chars.
  Proof. cbn. intros Hk Hc. repeat (destruct Hk as [<-|Hk]; [cbn in Hc; tauto|]). destruct Hk. Qed.
  Lemma has_around k p x q : k <> [] -> (forall c, In c k -> In c body_chars) -> x <> [] -> Forall (fun c => ~ In c body_chars) x -> has k (p ++ x ++ q) -> has k p \/ has k q.
  Proof.
    intros Hn Hk Hx Fx (a & b & E). symmetry in E. rewrite Forall_forall in Fx. destruct (app_eq_app _ _ _ _ E) as (l & [[E1 E2]|[E1 E2]]).
    - (* a = p ++ l, x ++ q = l ++ k ++ b *) destruct (app_eq_app _ _ _ _ E2) as (l2 & [[E3 E4]|[E3 E4]]).
      + (* x = l ++ l2 , k ++ b = l2 ++ q *) destruct l2 as [|c l2].
        * right. exists [], b. symmetry. exact E4.
        * exfalso. destruct k as [|c' k]; [congruence|]. injection E4 as -> _. apply (Fx c); [rewrite E3, in_app_iff; right; left; reflexivity|apply Hk; left; reflexivity].
      + right. exists l2, b. exact E4.
    - (* p = a ++ l, k ++ b = l ++ x ++ q *) destruct (app_eq_app _ _ _ _ E2) as (l2 & [[E3 E4]|[E3 E4]]).
      + (* k = l ++ l2, x ++ q = l2 ++ b *) destruct l2 as [|c l2].
        * left. exists a, []. rewrite app_nil_r in *. congruence.
        * exfalso. destruct x as [|c' x]; [congruence|]. injection E4 as -> _. apply (Fx c); [left; reflexivity|apply Hk; rewrite E3, in_app_iff; right; left; reflexivity].
      + left. exists a, l2. rewrite E1, E3. reflexivity.
  Qed.
  Lemma has_l k a b : has k a -> has k (a ++ b).
  Proof. intros (x & y & ->). exists x, (y ++ b). rewrite <- !app_assoc. reflexivity. Qed.
  Lemma has_r k a b : has k b -> has k (a ++ b).
  Proof. intros (x & y & ->). exists (a ++ x), y. rewrite <- !app_assoc. reflexivity. Qed.
  Lemma bodies_ne k : In k bodies -> k <> [].
  Proof. cbn. intros H. repeat (destruct H as [<-|H]; [discriminate|]). destruct H. Qed.
  Lemma rewr_noK d d' : rewr rany d d' -> forall a, noK (a ++ d) -> noK (a ++ d').
  Proof.
    induction 1 as [d|a w w' b b' HR H IH]; intros p Hn; [exact Hn|]. destruct HR as [_ (u & x & x' & v & E & E' & Hx)].
    rewrite !app_assoc. apply IH. intros k Hk Hh. apply (Hn k Hk). rewrite !nsp_app in *. rewrite E' in Hh. rewrite E. unfold str, char in *. destruct Hx as [->|[Hx Fx]]; [repeat rewrite <- (@app_assoc N) in Hh; repeat rewrite <- (@app_assoc N); exact Hh|].
    replace (((nsp p ++ nsp a) ++ u ++ x' ++ v) ++ nsp b) with ((nsp p ++ nsp a ++ u) ++ x' ++ (v ++ nsp b)) in Hh by (repeat rewrite <- (@app_assoc N); reflexivity).
    apply has_around in Hh; [|apply bodies_ne; exact Hk|intros c; apply body_in; exact Hk|exact Hx|exact Fx].
    replace (nsp p ++ nsp a ++ (u ++ x ++ v) ++ nsp b) with ((nsp p ++ nsp a ++ u) ++ x ++ (v ++ nsp b)) by (repeat rewrite <- (@app_assoc N); reflexivity).
    destruct Hh as [Hh|Hh]; [apply has_l; exact Hh|apply has_r; apply has_r; exact Hh].
  Qed.
  Record good (ms : list str) (d : list dch) : Prop := { g_marks : marks d = ms; g_iso : iso d; g_noK : noK d; g_no95 : no95 d }.
  Lemma rewr_good ms d d' : rewr rany d d' -> good ms d -> good ms d'.
  Proof.
    intros H [G1 G2 G3 G4]. assert (H' : rewr rb d d') by (eapply rewr_impl; [|exact H]; intros w w' [K _]; exact K).
    constructor; [rewrite <- G1; apply rewr_marks; exact H'|eapply rewr_iso; eauto|exact (rewr_noK _ _ H [] G3)|eapply rewr_no95; eauto].
  Qed.
  Lemma rewr_trans_app R a a' b b' : rewr R a a' -> rewr R b b' -> rewr R (a ++ b) (a' ++ b').
  Proof. intros H K. induction H as [d|x w w' y y' HR H IH]; [apply rewr_app; exact K|]. rewrite <- !app_assoc. constructor; [exact HR|]. exact IH. Qed.

  (** *** whitespace between words *)
  Inductive wseq : list dch -> list (list dch) -> Prop :=
  | wseq_none s : forallb isp s = true -> wseq s []
  | wseq_next s w rest ws : forallb isp s = true -> (forall x r, rest = x :: r -> isp x = true) -> wseq rest ws -> wseq (s ++ w ++ rest) (w :: ws).
  Fixpoint djoin (ds : list (list dch)) : list dch :=
    match ds with [] => [] | [d] => d | d :: ds' => d ++ [C 32%N] ++ djoin ds' end.
  Context (OK : udb_ok U).
  Lemma djoin_cons d ds : ds <> [] -> djoin (d :: ds) = d ++ [C 32%N] ++ djoin ds.
  Proof. destruct ds; [congruence|reflexivity]. Qed.
  Lemma nsp_spaces s : forallb isp s = true -> nsp s = [] /\ marks s = [].
  Proof. induction s as [|x s IH]; intros H; [auto|]. cbn in H. apply andb_true_iff in H. destruct H as [H1 H2]. destruct x as [c|]; [|discriminate]. cbn in *. rewrite H1. auto. Qed.
  Lemma nsp_djoin ds : nsp (djoin ds) = flat_map nsp ds /\ marks (djoin ds) = flat_map marks ds.
  Proof.
    induction ds as [|d [|d2 ds] [IH1 IH2]]; [auto|cbn; rewrite !app_nil_r; auto|]. rewrite djoin_cons by discriminate. rewrite !nsp_app, !marks_app, IH1, IH2. change (nsp [C 32%N]) with ((if u_space U 32%N then [] else [32%N]) ++ []). rewrite (space32 U OK). cbn. auto.
  Qed.
  Lemma wseq_content d ds : wseq d ds -> nsp d = flat_map nsp ds /\ marks d = flat_map marks ds.
  Proof.
    induction 1 as [s H|s w rest ws Hs Hr H [IH1 IH2]]; [apply nsp_spaces; exact H|]. rewrite !nsp_app, !marks_app. destruct (nsp_spaces s Hs) as [-> ->]. cbn. rewrite IH1, IH2. auto.
  Qed.
  Lemma wseq_iso d ds : wseq d ds -> forall q, run q d <> None -> run QS (djoin ds) <> None.
  Proof.
    induction 1 as [s H|s w rest ws Hs Hr H IH]; intros q Hq; [discriminate|]. rewrite run_app in Hq.
    destruct (run q s) as [q1|] eqn:E1; [|congruence]. rewrite run_app in Hq. destruct (run q1 w) as [q2|] eqn:E2; [|congruence].
    assert (exists q2', run QS w = Some q2' /\ better q2' q2) as (q2' & E2' & _) by (eapply run_better; [right; reflexivity|exact E2]).
    destruct ws as [|w2 ws]; [cbn [djoin]; rewrite E2'; discriminate|]. rewrite djoin_cons by discriminate. rewrite run_app, E2'. cbn [run next app]. rewrite (space32 U OK). exact (IH q2 Hq).
  Qed.
  Lemma wseq_no95 d ds : wseq d ds -> no95 d -> no95 (djoin ds).
  Proof.
    unfold no95. intros H Hn. assert (K : forall w, In w ds -> ~ In (C 95%N) w).
    { induction H as [s H|s w rest ws Hs Hr H IH]; intros v Hv; [destruct Hv|]. rewrite !in_app_iff in Hn. destruct Hv as [<-|Hv]; [tauto|]. apply IH; [tauto|exact Hv]. }
    clear H Hn. induction ds as [|w [|w2 ds] IH]; [intros []|cbn [djoin]; apply K; left; reflexivity|]. rewrite djoin_cons by discriminate. rewrite !in_app_iff. intros [H|[H|H]]; [exact (K w (or_introl eq_refl) H)|destruct H as [H|[]]; discriminate|]. revert H. apply IH. intros v Hv. apply K. right. exact Hv.
  Qed.
  Lemma wseq_good ms d ds : wseq d ds -> good ms d -> good ms (djoin ds).
  Proof.
    intros H [G1 G2 G3 G4]. destruct (wseq_content _ _ H) as [E1 E2]. destruct (nsp_djoin ds) as [E3 E4].
    constructor; [congruence|exact (wseq_iso _ _ H QS G2)|intros k Hk; rewrite E3, <- E1; apply G3; exact Hk|eapply wseq_no95; eauto].
  Qed.
End Good.
