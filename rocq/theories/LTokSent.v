(** The sentencizer with the tokenizer, on ordinary texts. *)
From Coq Require Import Ascii String.
From Coq Require Import List NArith ZArith Arith Bool Lia.
From Verif Require Import PyBase Regex MTokenizer MSentencizer SText STok LBase LText LRegex LSub LSentencizer LRestore LTok LTokWords LDecode LGood LRule LStages LProtect LTokDec LSanit LTokText.
Import ListNotations.
Local Open Scope nat_scope.

(** the characters between which a text may be changed: quotation marks, brackets, the paragraph mark, marks and their numbers *)
Definition bar : list char := [34; 40; 41; 182; 32; 3898; 3899; 10629; 10630; 48; 49; 50; 51; 52; 53; 54; 55; 56; 57]%N.

Lemma Forall2_in_l {A B} (R : A -> B -> Prop) l1 l2 : Forall2 R l1 l2 -> forall a, In a l1 -> exists b, In b l2 /\ R a b.
Proof. induction 1 as [|a b l1 l2 H F IH]; intros x Hx; [destruct Hx|]. destruct Hx as [->|Hx]; [exists b; split; [left; reflexivity|exact H]|]. destruct (IH x Hx) as (y & Hy & R1). exists y. split; [right; exact Hy|exact R1]. Qed.

Section TokSent.
  Context (U : udb) (OK : udb_ok U).
  Notation words := (split_ws (u_space U)).
  (** *** parts of the text *)
  Definition inside (k : str) : Prop := k <> [] /\ forall c, In c k -> ~ In c bar /\ u_space U c = false.
  Definition tkept (t t' : str) : Prop := forall k, inside k -> (contains k t' -> contains k t) /\ (contains k (visible U t') -> contains k (visible U t)).
  Lemma tkept_trans t1 t2 t3 : tkept t1 t2 -> tkept t2 t3 -> tkept t1 t3.
  Proof. intros H1 H2 k Hk. destruct (H1 k Hk), (H2 k Hk). auto. Qed.
  Lemma contains_trans a b c : contains a b -> contains b c -> contains a c.
  Proof. intros (x & y & ->) (u & v & ->). exists (u ++ x), (y ++ v). rewrite <- !app_assoc. reflexivity. Qed.
  Lemma contains_visible a b : contains a b -> contains (visible U a) (visible U b).
  Proof. intros (x & y & ->). exists (visible U x), (visible U y). rewrite !(visible_app U). reflexivity. Qed.
  Lemma tkept_part t t' : contains t' t -> tkept t t'.
  Proof. intros H k _. split; intros K; [exact (contains_trans _ _ _ K H)|exact (contains_trans _ _ _ K (contains_visible _ _ H))]. Qed.
  Lemma barred k p x q : inside k -> x <> [] -> Forall (fun c => In c bar) x -> contains k (p ++ x ++ q) -> contains k p \/ contains k q.
  Proof.
    intros [Hn Hk] Hx Fx Hc. apply (around (fun c => ~ In c bar) k p x q Hn); [apply Forall_forall; intros c Hc'; apply Hk; exact Hc'|exact Hx|eapply Forall_impl; [|exact Fx]; tauto|exact Hc].
  Qed.
  Lemma contains_l k p q : contains k p -> contains k (p ++ q).
  Proof. intros (x & y & ->). exists x, (y ++ q). rewrite <- !app_assoc. reflexivity. Qed.
  Lemma contains_r k p q : contains k q -> contains k (p ++ q).
  Proof. intros (x & y & ->). exists (p ++ x), y. rewrite <- !app_assoc. reflexivity. Qed.
  Lemma S34 : u_space U 34%N = false. Proof. apply (printable_space U OK); lia. Qed.
  Lemma S46 : u_space U 46%N = false. Proof. apply (printable_space U OK); lia. Qed.
  Lemma S182 : u_space U 182%N = false. Proof. apply (ok_symbols_space _ OK). cbn. tauto. Qed.
  Lemma close_contains k : inside k -> forall n s, length s <= n -> forall p,
    (contains k (p ++ close_quotes s) -> contains k (p ++ s)) /\ (contains k (p ++ visible U (close_quotes s)) -> contains k (p ++ visible U s)).
  Proof.
    intros Hk. induction n as [|n IH]; intros s Hl p; [destruct s; [cbn; auto|cbn in Hl; lia]|]. destruct s as [|c [|d s]]; [cbn; auto|cbn; auto|]. destruct (N.eqb c 46 && N.eqb d 34) eqn:E.
    - apply andb_true_iff in E. rewrite !N.eqb_eq in E. destruct E as [-> ->]. change (close_quotes (46%N :: 34%N :: s)) with (46%N :: 34%N :: 182%N :: close_quotes s). cbn in Hl. assert (Hl' : length s <= n) by lia. split; intros H.
      + replace (p ++ 46%N :: 34%N :: 182%N :: close_quotes s) with ((p ++ [46%N]) ++ [34; 182]%N ++ close_quotes s) in H by (rewrite <- app_assoc; reflexivity).
        apply barred in H; [|exact Hk|discriminate|repeat constructor; cbn; tauto]. replace (p ++ 46%N :: 34%N :: s) with ((p ++ [46%N]) ++ [34%N] ++ s) by (rewrite <- app_assoc; reflexivity).
        destruct H as [H|H]; [apply contains_l; exact H|]. apply contains_r, contains_r. exact (proj1 (IH s Hl' []) H).
      + cbn [visible filter] in *. unfold visible in *. cbn [filter] in *. rewrite S46, S34, S182 in *. cbn [negb] in *. 
        change (contains k (p ++ 46%N :: 34%N :: 182%N :: visible U (close_quotes s))) in H. change (contains k (p ++ 46%N :: 34%N :: visible U s)).
        replace (p ++ 46%N :: 34%N :: 182%N :: visible U (close_quotes s)) with ((p ++ [46%N]) ++ [34; 182]%N ++ visible U (close_quotes s)) in H by (rewrite <- app_assoc; reflexivity).
        apply barred in H; [|exact Hk|discriminate|repeat constructor; cbn; tauto]. replace (p ++ 46%N :: 34%N :: visible U s) with ((p ++ [46%N]) ++ [34%N] ++ visible U s) by (rewrite <- app_assoc; reflexivity).
        destruct H as [H|H]; [apply contains_l; exact H|]. apply contains_r, contains_r. exact (proj2 (IH s Hl' []) H).
    - rewrite close_cons by (intros s' Es; injection Es as -> -> _; discriminate E). assert (Hl' : length (d :: s) <= n) by (cbn in *; lia). set (s' := d :: s) in *. clearbody s'. split; intros H.
      + replace (p ++ c :: close_quotes s') with ((p ++ [c]) ++ close_quotes s') in H by (rewrite <- app_assoc; reflexivity). apply (IH s' Hl') in H. rewrite <- app_assoc in H. exact H.
      + unfold visible in *. cbn [filter] in *. destruct (negb (u_space U c)); [|exact (proj2 (IH s' Hl' p) H)]. change (contains k (p ++ c :: visible U (close_quotes s'))) in H. change (contains k (p ++ c :: visible U s')).
        replace (p ++ c :: visible U (close_quotes s')) with ((p ++ [c]) ++ visible U (close_quotes s')) in H by (rewrite <- app_assoc; reflexivity). apply (IH s' Hl') in H. rewrite <- app_assoc in H. exact H.
  Qed.
  Lemma tkept_close s : tkept s (close_quotes s).
  Proof. intros k Hk. exact (close_contains k Hk _ s (le_n _) []). Qed.
  Lemma inside32 k : inside k -> ~ In 32%N k.
  Proof. intros [_ Hk] Hi. apply (Hk _ Hi). cbn. tauto. Qed.
  Lemma tkept_words s : tkept s (join [space] (words s)).
  Proof. intros k Hk. split; [apply (contains_words U); [apply Hk|apply inside32; exact Hk]|]. change [space] with (lit " "). rewrite (visible_words U OK). auto. Qed.
  Lemma tkept_sanitized b : tkept b (sanitize U sz_sanitization b).
  Proof. rewrite (sanitize_block U OK). eapply tkept_trans; [apply tkept_close|apply tkept_words]. Qed.
  Lemma visible_collapse p s : visible U (collapse U p s) = visible U s.
  Proof.
    revert p. induction s as [|c s IH]; intros p; [reflexivity|]. cbn [collapse]. unfold visible in *. cbn [filter]. destruct (u_space U c) eqn:E; cbn [negb].
    - rewrite filter_app, IH. destruct p; [reflexivity|]. cbn. change space with 32%N. rewrite (space32 U OK). reflexivity.
    - cbn [filter]. rewrite E. cbn. rewrite IH. reflexivity.
  Qed.
  Lemma contains_word k s : inside k -> contains k s -> exists w, In w (words s) /\ contains k w.
  Proof.
    intros [Hn Hk] Hc. destruct (words_of_total U s) as (ws & W). rewrite (words_of_fun U s ws W). clear -Hn Hk Hc W. induction W as [s H|s w rest ws Hs Hne Hw Hr W IH].
    - exfalso. destruct Hc as (x & y & ->). destruct k as [|c k]; [congruence|]. destruct (Hk c (or_introl eq_refl)) as [_ E]. rewrite (H c) in E; [discriminate|]. rewrite in_app_iff. right. left. reflexivity.
    - assert (G : contains k (w ++ rest)).
      { clear -Hn Hk Hc Hs. destruct s as [|a s]; [exact Hc|]. destruct (around (fun c => u_space U c = false) k [] (a :: s) (w ++ rest) Hn) as [(x & y & E)|G]; [apply Forall_forall; intros c Hc'; apply Hk; exact Hc'|discriminate|apply Forall_forall; intros c Hc'; rewrite (Hs c Hc'); discriminate|exact Hc| |exact G].
        destruct x; [|discriminate]. destruct k; [congruence|discriminate]. }
      destruct rest as [|a rest]; [rewrite app_nil_r in G; exists w; split; [left; reflexivity|exact G]|].
      destruct (around (fun c => u_space U c = false) k w [a] rest Hn) as [K|K]; [apply Forall_forall; intros c Hc'; apply Hk; exact Hc'|discriminate|constructor; [rewrite (Hr a rest eq_refl); discriminate|constructor]|exact G|exists w; split; [left; reflexivity|exact K]|].
      destruct IH as (v & Hv & Kv); [apply (contains_r k [a]); exact K|]. exists v. split; [right; exact Hv|exact Kv].
  Qed.
  Lemma word_contains k w s : In w (words s) -> contains k w -> contains k s.
  Proof.
    intros Hw Hc. destruct (words_of_total U s) as (ws & W). rewrite (words_of_fun U s ws W) in Hw. induction W as [s H|s v rest ws Hs Hne Hww Hr W IH]; [destruct Hw|]. destruct Hw as [->|Hw]; [apply contains_r, contains_l; exact Hc|apply contains_r, contains_r; auto].
  Qed.
  Lemma tkept_collapse p s : tkept s (collapse U p s).
  Proof.
    intros k Hk. rewrite visible_collapse. split; [|auto]. intros H. apply (contains_word k _ Hk) in H. destruct H as (w & Hw & Hc). rewrite (words_collapsed U OK) in Hw. eapply word_contains; eauto.
  Qed.
  Lemma mark_bar st en n : In st bar -> In en bar -> Forall (fun c => In c bar) (mark st en n).
  Proof.
    intros H1 H2. apply Forall_forall. intros c Hc. apply mark_chars in Hc. destruct Hc as [->|[->|[->|Hc]]]; [cbn; tauto|exact H1|exact H2|]. assert (exists k, c = N.of_nat k /\ 48 <= k <= 57) as (k & -> & Hk) by (exists (N.to_nat c); lia).
    do 48 (destruct k as [|k]; [lia|]). do 10 (destruct k as [|k]; [cbn; tauto|]). lia.
  Qed.
  Lemma tkept_marked o c st en t ps tl : In o bar -> In c bar -> In st bar -> In en bar -> u_space U st = false -> parts_of o c t ps tl -> forall n, tkept t (marked st en n ps tl).
  Proof.
    intros Ho Hc Hst Hen Sst P n k Hk. revert n. induction P as [t H|pre ins rest ps tl H1 H2 P IH]; intros n; [auto|]. cbn [marked]. split; intros K.
    - apply barred in K; [|exact Hk|discriminate|apply mark_bar; assumption]. destruct K as [K|K]; [apply contains_l; exact K|]. do 4 apply contains_r. exact (proj1 (IH (S n)) K).
    - rewrite !(visible_app U) in *. apply barred in K; [|exact Hk| |].
      + destruct K as [K|K]; [apply contains_l; exact K|]. do 4 apply contains_r. exact (proj2 (IH (S n)) K).
      + intros E. assert (In st (visible U (mark st en n))) as Hi; [|rewrite E in Hi; destruct Hi]. apply filter_In. split; [right; left; reflexivity|]. rewrite Sst. reflexivity.
      + apply Forall_forall. intros x Hx. apply filter_In in Hx. pose proof (mark_bar st en n Hst Hen) as F. rewrite Forall_forall in F. apply F. tauto.
  Qed.

  (** *** marks *)
  Definition und (d : list dch) : str := flat_map (fun x => match x with C c => [c] | M m => m end) d.
  Definition menv (q b : nat) : envt :=
    map (fun n => (core quote_start quote_end n, [M (core quote_start quote_end n)])) (seq 0 q) ++ map (fun n => (core bracket_start bracket_end n, [M (core bracket_start bracket_end n)])) (seq 0 b).
  Notation RS := (incl_refl res_chars).
  Section Marks.
    Context (nq nb : nat).
    Notation env := (menv nq nb).
    Notation dec := (dec res_chars env).
    Definition valid (m : str) : Prop := (exists n, n < nq /\ m = core quote_start quote_end n) \/ (exists n, n < nb /\ m = core bracket_start bracket_end n).
    Lemma menv_in a v : In (a, v) env <-> v = [M a] /\ valid a.
    Proof.
      unfold menv. rewrite in_app_iff, !in_map_iff. split.
      - intros [(n & E & Hn)|(n & E & Hn)]; injection E as <- <-; apply in_seq in Hn; (split; [reflexivity|]); [left|right]; exists n; (split; [lia|reflexivity]).
      - intros [-> [(n & Hn & ->)|(n & Hn & ->)]]; [left|right]; exists n; (split; [reflexivity|apply in_seq; lia]).
    Qed.
    Lemma valid_form a : valid a -> exists st en n, a = core st en n /\ In st res_chars /\ In en res_chars.
    Proof. intros [(n & _ & ->)|(n & _ & ->)]; eexists _, _, n; (split; [reflexivity|]); cbn; tauto. Qed.
    Lemma core_chars st en n c : In c (core st en n) -> c = st \/ c = en \/ (48 <= c <= 57)%N.
    Proof.
      unfold core. rewrite !in_app_iff. intros [[<-|[]]|[H|[<-|[]]]]; auto. pose proof (str_of_nat_digits n) as F. rewrite Forall_forall in F. auto.
    Qed.
    Lemma digit_inner c : (48 <= c <= 57)%N -> In c inner_chars.
    Proof.
      intros Hc. assert (exists k, c = N.of_nat k /\ 48 <= k <= 57) as (k & -> & Hk) by (exists (N.to_nat c); lia). do 48 (destruct k as [|k]; [lia|]). do 10 (destruct k as [|k]; [cbn; tauto|]). lia.
    Qed.
    Lemma menv_ok a v : In (a, v) env -> framed res_chars a /\ ~ In 95%N a.
    Proof.
      intros H. apply menv_in in H. destruct H as [-> H]. destruct (valid_form a H) as (st & en & n & -> & Hs & He). split.
      - exists st, (str_of_nat n), en. split; [reflexivity|]. split; [right; exact Hs|]. split; [right; exact He|]. eapply Forall_impl; [|apply str_of_nat_digits]. intros c Hc. apply in_app_iff. right. apply digit_inner. exact Hc.
      - intros Hi. apply core_chars in Hi. cbn in Hs, He. destruct Hi as [<-|[<-|Hi]]; [intuition discriminate|intuition discriminate|lia].
    Qed.
    Lemma FE : framed_env res_chars env.
    Proof. intros a v H. apply (menv_ok a v H). Qed.
    Lemma valid_word a : valid a -> a <> [] /\ Forall (fun c => u_space U c = false) a.
    Proof.
      intros H. destruct (valid_form a H) as (st & en & n & -> & Hs & He). apply (core_word U OK); apply (reserved_not_space U OK); cbn in *; tauto.
    Qed.
    Lemma dec_und t d : dec t d -> t = und d.
    Proof. induction 1 as [|c t d Hc H IH|a v t d Hi H IH]; [reflexivity|unfold und in *; cbn [app flat_map]; rewrite <- IH; reflexivity|]. apply menv_in in Hi. destruct Hi as [-> _]. unfold und in *. cbn [app flat_map]. rewrite <- IH. reflexivity. Qed.
    Lemma und_app a b : und (a ++ b) = und a ++ und b.
    Proof. apply flat_map_app. Qed.
    Lemma und_C k : und (map C k) = k.
    Proof. induction k as [|c k IH]; [reflexivity|]. unfold und in *. cbn [map flat_map app]. rewrite IH. reflexivity. Qed.
    Lemma dec_factor t d k : dec t d -> factor (map C k) d -> contains k t.
    Proof. intros H (x & y & ->). rewrite (dec_und _ _ H), !und_app, und_C. exists (und x), (und y). reflexivity. Qed.
    Lemma dec_nsp t d : dec t d -> nsp U d = visible U t.
    Proof.
      induction 1 as [|c t d Hc H IH|a v t d Hi H IH]; [reflexivity| |].
      - change (nsp U (C c :: d)) with ((if u_space U c then [] else [c]) ++ nsp U d). rewrite IH. unfold visible. cbn [filter]. destruct (u_space U c); reflexivity.
      - apply menv_in in Hi. destruct Hi as [-> Hv]. rewrite (visible_app U), <- IH. change (nsp U ([M a] ++ d)) with (a ++ nsp U d). f_equal. apply valid_word in Hv. destruct Hv as [_ Hv]. clear -Hv. induction Hv as [|c a Hc Hv IH]; [reflexivity|]. unfold visible in *. cbn [filter]. rewrite Hc. cbn [negb]. rewrite <- IH. reflexivity.
    Qed.
    Lemma dec_marks_valid t d m : dec t d -> In (M m) d -> valid m.
    Proof. induction 1 as [|c t d Hc H IH|a v t d Hi H IH]; intros Hm; [destruct Hm|destruct Hm as [Hm|Hm]; [discriminate|auto]|]. apply menv_in in Hi. destruct Hi as [-> Hv]. destruct Hm as [Hm|Hm]; [injection Hm as <-; exact Hv|auto]. Qed.
    Lemma dec_plain_in t d c : dec t d -> In (C c) d -> plainc res_chars c.
    Proof. induction 1 as [|c' t d Hc H IH|a v t d Hi H IH]; intros Hm; [destruct Hm|destruct Hm as [Hm|Hm]; [injection Hm as <-; exact Hc|auto]|]. apply menv_in in Hi. destruct Hi as [-> Hv]. destruct Hm as [Hm|Hm]; [discriminate|auto]. Qed.
    (** whitespace *)
    Fixpoint dcol (p : bool) (d : list dch) : list dch :=
      match d with
      | [] => []
      | C c :: d' => if u_space U c then (if p then [] else [C space]) ++ dcol true d' else C c :: dcol false d'
      | M m :: d' => M m :: dcol false d'
      end.
    Lemma collapse_words_app w t p : w <> [] -> Forall (fun c => u_space U c = false) w -> collapse U p (w ++ t) = w ++ collapse U false t.
    Proof. intros Hn H. destruct H as [|c w Hc H]; [congruence|]. cbn [app collapse]. rewrite Hc. f_equal. apply collapse_word. exact H. Qed.
    Lemma dec_collapse t d : dec t d -> forall p, dec (collapse U p t) (dcol p d).
    Proof.
      induction 1 as [|c t d Hc H IH|a v t d Hi H IH]; intros p; [constructor| |].
      - cbn [collapse dcol]. destruct (u_space U c); [|constructor; auto]. destruct p; cbn [app]; [auto|]. constructor; [apply (plain32 U OK res_chars RS)|auto].
      - apply menv_in in Hi as Hv. destruct Hv as [-> Hv]. destruct (valid_word a Hv) as [N S]. rewrite collapse_words_app by assumption. cbn [app dcol]. change (M a :: dcol false d) with ([M a] ++ dcol false d). constructor; [exact Hi|auto].
    Qed.
    Lemma run_collapse d : forall p q, (p = true -> q = QS) -> run U q d <> None -> run U q (dcol p d) <> None.
    Proof.
      induction d as [|x d IH]; intros p q Hp Hr; [exact Hr|]. destruct x as [c|m]; cbn [dcol].
      - cbn [run next] in Hr. destruct (u_space U c) eqn:E.
        + destruct p; cbn [app]; [rewrite (Hp eq_refl); apply IH; auto|]. cbn [run next]. change space with 32%N. rewrite (space32 U OK). apply IH; auto.
        + cbn [run next]. rewrite E. destruct q; try (apply IH; [discriminate|exact Hr]). congruence.
      - cbn [run next] in *. destruct q; try congruence. apply IH; [discriminate|exact Hr].
    Qed.
    Lemma iso_collapse p d : iso U d -> iso U (dcol p d).
    Proof. apply run_collapse. auto. Qed.
    (** parts *)
    Lemma iso_app a b : iso U (a ++ b) -> iso U a /\ iso U b.
    Proof.
      unfold iso. rewrite run_app. intros H. destruct (run U QS a) as [q|] eqn:E; [|congruence]. split; [discriminate|]. destruct (run U q b) as [r|] eqn:E2; [|congruence]. destruct (run_better U b q QS r (or_intror eq_refl) E2) as (r' & -> & _). discriminate.
    Qed.
    Lemma iso_mark a m b : iso U a -> iso U b -> iso U (a ++ [C space; M m; C space] ++ b).
    Proof. unfold iso. intros H1 H2. rewrite run_app. destruct (run U QS a) as [q|]; [|congruence]. cbn [app run next]. change space with 32%N. rewrite (space32 U OK). exact H2. Qed.
    Lemma dec_cut1 o pre r d : rare res_chars o -> plainc res_chars o -> dec (pre ++ [o] ++ r) d -> exists d1 d2, d = d1 ++ [C o] ++ d2 /\ dec pre d1 /\ dec r d2.
    Proof. intros H1 H2 H. apply (dec_split res_chars env pre [o] r d FE) in H; [|constructor; [exact H2|constructor]|exists o; split; [left; reflexivity|exact H1]]. exact H. Qed.
    Lemma marked_dec o c st en t ps tl : rare res_chars o -> plainc res_chars o -> rare res_chars c -> plainc res_chars c -> parts_of o c t ps tl -> forall n d, (forall k, k < length ps -> valid (core st en (n + k))) -> dec t d -> iso U d ->
      (exists d', dec (marked st en n ps tl) d' /\ iso U d') /\ Forall (fun p => exists d', dec (snd p) d' /\ iso U d') ps.
    Proof.
      intros R1 P1 R2 P2 P. induction P as [t H|pre ins rest ps tl H1 H2 P IH]; intros n d HV Hd Hi; [split; [exists d; auto|constructor]|].
      apply (dec_cut1 o) in Hd; [|assumption|assumption]. destruct Hd as (d1 & d2 & -> & D1 & D2). apply (dec_cut1 c) in D2; [|assumption|assumption]. destruct D2 as (d3 & d4 & -> & D3 & D4).
      apply iso_app in Hi. destruct Hi as [I1 Hi]. apply iso_app in Hi. destruct Hi as [_ Hi]. apply iso_app in Hi. destruct Hi as [I3 Hi]. apply iso_app in Hi. destruct Hi as [_ I4].
      destruct (IH (S n) d4) as [(d' & D' & I') F]; [intros k Hk; rewrite Nat.add_succ_comm; apply HV; cbn; lia|exact D4|exact I4|].
      split; [|constructor; [exists d3; auto|exact F]]. exists (d1 ++ [C space; M (core st en n); C space] ++ d'). split; [|apply iso_mark; assumption]. cbn [marked]. apply dec_app; [exact D1|].
      replace (mark st en n ++ marked st en (S n) ps tl) with (space :: core st en n ++ space :: marked st en (S n) ps tl) by (unfold mark, core; cbn [app]; rewrite <- !app_assoc; reflexivity).
      cbn [app]. constructor; [apply (plain32 U OK res_chars RS)|]. change (M (core st en n) :: C space :: d') with ([M (core st en n)] ++ C space :: d'). constructor.
      - apply menv_in. split; [reflexivity|]. specialize (HV 0). rewrite Nat.add_0_r in HV. apply HV. cbn. lia.
      - constructor; [apply (plain32 U OK res_chars RS)|exact D'].
    Qed.
    (** tokens *)
    Definition fine (w : str) : Prop := valid w \/ Forall (fun c => ~ reserved c) w.
    Lemma run_none_spaces dw : forall q, (forall x, In x dw -> isp U x = false) -> run U q dw <> None -> q <> QS -> (q = QM -> dw = []) /\ forall m, ~ In (M m) dw.
    Proof.
      induction dw as [|x dw IH]; intros q Hs Hr Hq; [auto|]. cbn [run] in Hr. pose proof (Hs x (or_introl eq_refl)) as Hx. destruct x as [c|m]; cbn in Hx, Hr.
      - rewrite Hx in Hr. destruct q; try congruence. split; [discriminate|]. intros m [E|Hm]; [discriminate|]. revert Hm. apply (IH QN); [intros y Hy; apply Hs; right; exact Hy|exact Hr|discriminate].
      - destruct q; congruence.
    Qed.
    Lemma word_fine w dw : w <> [] -> Forall (fun c => u_space U c = false) w -> dec w dw -> iso U dw -> fine w.
    Proof.
      intros Hn Hw Hd Hi. assert (NS : forall x, In x dw -> isp U x = false).
      { intros [c|m] Hx; [|reflexivity]. cbn. rewrite Forall_forall in Hw. apply Hw. rewrite (dec_und _ _ Hd). unfold und. apply in_flat_map. exists (C c). split; [exact Hx|left; reflexivity]. }
      destruct dw as [|x dw]; [apply dec_und in Hd; subst w; exfalso; apply Hn; reflexivity|]. destruct x as [c|m].
      - right. assert (NM : forall m, ~ In (M m) (C c :: dw)).
        { intros m [E|Hm]; [discriminate|]. revert Hm. unfold iso in Hi. cbn [run next] in Hi. pose proof (NS (C c) (or_introl eq_refl)) as Hc. cbn in Hc. rewrite Hc in Hi. apply (run_none_spaces dw QN); [intros y Hy; apply NS; right; exact Hy|exact Hi|discriminate]. }
        apply Forall_forall. intros y Hy Hr. rewrite (dec_und _ _ Hd) in Hy. unfold und in Hy. apply in_flat_map in Hy. destruct Hy as ([z|m] & Hz & Hy); [|exact (NM m Hz)]. destruct Hy as [<-|[]]. apply (dec_plain_in _ _ _ Hd Hz). right. exact Hr.
      - unfold iso in Hi. cbn [run next] in Hi. destruct (run_none_spaces dw QM) as [E _]; [intros y Hy; apply NS; right; exact Hy|exact Hi|discriminate|]. specialize (E eq_refl). subst dw. left. pose proof (dec_und _ _ Hd) as E. cbn in E. rewrite app_nil_r in E. subst w. eapply dec_marks_valid; [exact Hd|left; reflexivity].
    Qed.
    Lemma djoin_part w ds : In w ds -> exists x y, djoin ds = x ++ w ++ y.
    Proof.
      induction ds as [|v ds IH]; intros H; [destruct H|]; destruct H as [->|H].
      - destruct ds as [|v2 ds]; [exists [], []; rewrite app_nil_r; reflexivity|]. rewrite djoin_cons by discriminate. exists [], ([C 32%N] ++ djoin (v2 :: ds)). reflexivity.
      - destruct (IH H) as (x & y & E). destruct ds as [|v2 ds]; [destruct H|]. rewrite djoin_cons by discriminate. rewrite E. exists (v ++ [C 32%N] ++ x), y. rewrite <- !app_assoc. reflexivity.
    Qed.
    Lemma words_fine T d : dec T d -> iso U d -> Forall fine (words T).
    Proof.
      intros Hd Hi. destruct (dec_words' U OK res_chars RS env T d FE Hd) as (ds & F & W). pose proof (wseq_iso U OK d ds W QS Hi) as Hj. pose proof (split_ws_words (u_space U) T) as S. apply Forall_forall. intros w Hw. rewrite Forall_forall in S. destruct (S w Hw) as [S1 S2].
      destruct (Forall2_in_l _ _ _ F w Hw) as (dw & Hdw & D). eapply word_fine; eauto. destruct (djoin_part dw ds Hdw) as (x & y & E). fold (iso U (djoin ds)) in Hj. rewrite E in Hj. apply iso_app in Hj. destruct Hj as [_ Hj]. apply iso_app in Hj. tauto.
    Qed.
    (** the tokens of a text with marks, when it comes from an ordinary text *)
    Lemma tokens_fine text t d : ordinary U text -> tkept text t -> dec t d -> iso U d -> exists toks, tokenize U t = Ok toks /\ Forall fine toks.
    Proof.
      intros (H95 & H47 & HW & K1 & K2 & K3) HT Hd Hi. destruct t as [|c0 t0] eqn:Et; [exists [[]]; split; [reflexivity|constructor; [right; constructor|constructor]]|]. rewrite <- Et in *. assert (Hn : t <> []) by (rewrite Et; discriminate). clear Et.
      assert (one : forall c, (33 <= c < 127)%N -> ~ In c bar -> inside [c]) by (intros c Hc Hb; split; [discriminate|]; intros x [<-|[]]; split; [exact Hb|apply (printable_space U OK); lia]).
      assert (abs : forall c, (33 <= c < 127)%N -> ~ In c bar -> ~ In c text -> ~ In (C c) d).
      { intros c Hc Hb Hni Hin. apply Hni. apply in_split in Hin. destruct Hin as (x & y & E). destruct (proj1 (HT [c] (one c Hc Hb))) as (u & v & ->); [apply (dec_factor _ _ _ Hd); exists x, y; exact E|]. rewrite !in_app_iff. right. left. left. reflexivity. }
      assert (G : good U (marks d) d).
      { constructor; [reflexivity|exact Hi| |apply abs; [lia|cbn; intuition discriminate|exact H95]]. intros k Hk (x & y & E). rewrite (dec_nsp _ _ Hd) in E.
        assert (NB : inside k).
        { split; [cbn in Hk; intuition (subst; discriminate)|]. intros c Hc. split; [|apply (body_space U OK k c Hk Hc)]. pose proof (body_in k c Hk Hc) as B. cbn in B |- *. intuition (subst; discriminate). }
        assert (CT : contains k (visible U text)) by (apply (HT k NB); exists x, y; exact E). cbn in Hk. destruct Hk as [<-|[<-|[<-|[<-|[<-|[]]]]]]; auto.
        - apply K2. destruct CT as (u & v & ->). exists (u ++ lit "R"), v. rewrite <- app_assoc. reflexivity.
        - apply K3. destruct CT as (u & v & ->). exists (u ++ lit "R"), v. rewrite <- app_assoc. reflexivity. }
      assert (N47 : ~ In (C 47%N) d) by (apply abs; [lia|cbn; intuition discriminate|exact H47]).
      assert (NW : nowww U d).
      { intros x y z Hx Hy Hz F. apply (dec_factor _ _ _ Hd) in F.
        assert (WB : forall a, is_w U a -> ~ In a bar /\ u_space U a = false).
        { intros a Ha. split; [|rewrite <- (ok_var_space _ OK a 119%N Ha); apply (printable_space U OK); lia]. intros Hb. assert (Hc : (a < 128)%N \/ In a code_symbols) by (cbn in Hb |- *; intuition (subst; lia)). destruct Hc as [Hc|Hc].
          - destruct (ok_var_letter _ OK a 119%N Hc Ha ltac:(lia)) as [E|E]; cbn in Hb; repeat (destruct Hb as [<-|Hb]; [discriminate E|]); destruct Hb.
          - pose proof (ok_symbols _ OK a 119%N Hc (or_introl Ha)) as E. subst a. cbn in Hc. intuition discriminate. }
        apply (HW [x; y; z; 46%N]); [exists x, y, z; split; [reflexivity|repeat constructor; assumption]|]. apply (HT [x; y; z; 46%N]); [|exact F]. split; [discriminate|]. intros c Hc. cbn in Hc. destruct Hc as [<-|[<-|[<-|[<-|[]]]]]; auto. split; [cbn; intuition discriminate|apply S46]. }
      destruct (tokenize_dec U OK res_chars RS env menv_ok (marks d) t d Hn Hd G N47 NW) as (d1 & _ & _ & _ & F). destruct (F False) as (T & d2 & E & D2 & G2 & _); [tauto|tauto|]. exists (words T). split; [exact E|]. eapply words_fine; [exact D2|exact (g_iso _ _ _ G2)].
    Qed.
  End Marks.

  (** *** sentences *)
  Notation tk := (tokenize U).
  Lemma mapM_ok {A B} (f : A -> res B) l : (forall x, In x l -> exists y, f x = Ok y) -> exists ys, mapM f l = Ok ys.
  Proof.
    induction l as [|x l IH]; intros H; [exists []; reflexivity|]. destruct (H x (or_introl eq_refl)) as (y & E). destruct IH as (ys & Es); [intros z Hz; apply H; right; exact Hz|]. exists (y :: ys). cbn. rewrite E. cbn. rewrite Es. reflexivity.
  Qed.
  Lemma quote_fine Q n : n < length Q -> exists ts, quote_block U tk Q (core quote_start quote_end n) = Ok ts.
  Proof.
    intros H. destruct (nth_error Q n) as [q|] eqn:E; [|apply nth_error_None in E; lia]. unfold quote_block. rewrite core_inside, (LSave.int_str U OK). cbn [rbind]. rewrite (index_nth Q n q E). cbn [rbind]. destruct (tokenize_ok U OK q) as (ts & ->). eexists. reflexivity.
  Qed.
  Lemma split_loop_in ts : forall cur s t, In s (split_loop U cur ts) -> In t s -> In t cur \/ In t ts.
  Proof.
    induction ts as [|t0 ts IH]; intros cur s t Hs Ht; cbn [split_loop] in Hs.
    - destruct cur; [destruct Hs|]. destruct Hs as [<-|[]]. auto.
    - destruct (is_ender U t0).
      + destruct Hs as [<-|Hs]; [|destruct (IH _ _ _ Hs Ht) as [[]|H]; right; right; exact H]. destruct (str_eqb t0 [182%N]); [auto|]. apply in_app_iff in Ht. destruct Ht as [Ht|[<-|[]]]; [auto|right; left; reflexivity].
      + destruct (IH _ _ _ Hs Ht) as [H|H]; [|right; right; exact H]. apply in_app_iff in H. destruct H as [H|[<-|[]]]; [auto|right; left; reflexivity].
  Qed.
  Lemma rare34 : rare res_chars 34%N. Proof. unfold rare. cbn. intuition discriminate. Qed.
  Lemma rare40 : rare res_chars 40%N. Proof. unfold rare. cbn. intuition discriminate. Qed.
  Lemma rare41 : rare res_chars 41%N. Proof. unfold rare. cbn. intuition discriminate. Qed.
  Lemma plain_rare c : rare res_chars c -> plainc res_chars c.
  Proof. intros H K. apply H. apply in_app_iff. left. exact K. Qed.
  Theorem sentencize_ordinary text : ordinary U text -> (forall c, In c text -> ~ reserved c) -> exists sentences, sentencize U tk text = Ok sentences.
  Proof.
    intros HO Hres. pose proof (split_newlines U OK text) as SB. set (blocks := re_split U false re_newline text) in *.
    assert (Hin : forall b, In b blocks -> Forall (fun c => ~ reserved c /\ c <> 95%N) (sanitize U sz_sanitization b)).
    { intros b Hb. apply Forall_forall. intros c Hc. apply (sanitized_in U OK) in Hc. destruct Hc as [Hc|[-> | ->]].
      - assert (In c text) as Hct by (eapply split_blocks_in; eauto). split; [apply Hres; exact Hct|]. intros ->. destruct HO as [HO _]. exact (HO Hct).
      - unfold reserved. cbn. intuition discriminate.
      - unfold reserved. cbn. intuition discriminate. }
    assert (Hpart : forall b, In b blocks -> contains b text).
    { clear - SB. induction SB as [b H|b s rest bs H1 H2 H3 H4 H5 H IH]; intros b' Hb; [destruct Hb as [<-|[]]; exists [], []; rewrite app_nil_r; reflexivity|]. destruct Hb as [<-|Hb]; [apply contains_l; exists [], []; rewrite app_nil_r; reflexivity|]. apply contains_r, contains_r. auto. }
    unfold sentencize. fold blocks. change re_quote with (re_block 34%N 34%N). change re_bracket with (re_block 40%N 41%N).
    destruct (find_all_spec U 34%N 34%N quote_start quote_end (map (sanitize U sz_sanitization) blocks) []) as (ext1 & _ & F1).
    { apply Forall_forall. intros b Hb. apply in_map_iff in Hb. destruct Hb as (b0 & <- & _). apply (sanitized_no_nl U OK). }
    destruct (find_all U (re_block 34%N 34%N) quote_start quote_end (map (sanitize U sz_sanitization) blocks) []) as [blocks1 Q]. cbn [fst snd] in F1.
    destruct (find_all_spec U 40%N 41%N bracket_start bracket_end blocks1 []) as (ext2 & EX2 & F2).
    { apply Forall_forall. intros b Hb Hc. destruct (Forall2_in_r _ _ _ F1 _ Hb) as (b0 & _ & n & ps & tl & _ & -> & _). apply (collapse_space U) in Hc; [discriminate|]. rewrite (ok_space _ OK) by reflexivity. reflexivity. }
    assert (SRC : forall x, In x (snd (find_all U (re_block 40%N 41%N) bracket_start bracket_end blocks1 [])) -> exists b1 ps tl, In b1 blocks1 /\ parts_of 40%N 41%N b1 ps tl /\ In x (map snd ps)).
    { assert (NL : Forall (fun b => ~ In 10%N b) blocks1) by (apply Forall_forall; intros b Hb Hc; destruct (Forall2_in_r _ _ _ F1 _ Hb) as (b0 & _ & n & ps & tl & _ & -> & _); apply (collapse_space U) in Hc; [discriminate|]; rewrite (ok_space _ OK) by reflexivity; reflexivity).
      assert (G : forall bs ctr x, Forall (fun b => ~ In 10%N b) bs -> In x (snd (find_all U (re_block 40%N 41%N) bracket_start bracket_end bs ctr)) -> In x ctr \/ exists b1 ps tl, In b1 bs /\ parts_of 40%N 41%N b1 ps tl /\ In x (map snd ps)).
      { clear - OK. induction bs as [|b bs IH]; intros ctr x Hnl Hx; cbn [find_all] in Hx; [auto|]. inversion Hnl as [|? ? Hb Hbs]; subst. destruct (find_blocks_spec U 40%N 41%N bracket_start bracket_end b ctr Hb) as (ps & tl & P & E). rewrite E in Hx.
        destruct (find_all U (re_block 40%N 41%N) bracket_start bracket_end bs (ctr ++ map snd ps)) as [bs' R] eqn:ER. cbn [snd] in Hx. specialize (IH (ctr ++ map snd ps) x Hbs). rewrite ER in IH. cbn [snd] in IH. destruct (IH Hx) as [H|(b1 & ps1 & tl1 & H1 & H2 & H3)].
        - apply in_app_iff in H. destruct H as [H|H]; [auto|]. right. exists b, ps, tl. split; [left; reflexivity|auto].
        - right. exists b1, ps1, tl1. split; [right; exact H1|auto]. }
      intros x Hx. destruct (G _ _ x NL Hx) as [[]|K]. exact K. }
    destruct (find_all U (re_block 40%N 41%N) bracket_start bracket_end blocks1 []) as [blocks2 B]. cbn [fst snd] in *.
    set (nq := length Q). set (nb := length B).
    (* the text with marks for quotations *)
    assert (D1 : forall b1, In b1 blocks1 -> tkept text b1 /\ exists d, dec res_chars (menv nq nb) b1 d /\ iso U d).
    { intros b1 Hb1. destruct (Forall2_in_r _ _ _ F1 _ Hb1) as (b0 & Hb0 & n & ps & tl & P & -> & HQ). apply in_map_iff in Hb0. destruct Hb0 as (b & <- & Hb). split.
      - eapply tkept_trans; [apply tkept_part, (Hpart b Hb)|]. eapply tkept_trans; [apply tkept_sanitized|]. eapply tkept_trans; [|apply tkept_collapse]. eapply tkept_marked; [| | | | |exact P]; try (cbn; tauto). apply (reserved_not_space U OK), res_qs.
      - destruct (marked_dec nq nb 34%N 34%N quote_start quote_end _ ps tl rare34 (plain_rare _ rare34) rare34 (plain_rare _ rare34) P n (map C (sanitize U sz_sanitization b))) as [(d & D & I) _].
        + intros k Hk. left. exists (n + k). split; [|reflexivity]. unfold nq. apply nth_error_Some. destruct (nth_error (map snd ps) k) as [x|] eqn:E; [rewrite (HQ k x E); discriminate|]. apply nth_error_None in E. rewrite map_length in E. lia.
        + apply dec_plain. eapply Forall_impl; [|exact (Hin b Hb)]. intros c [H1 H2] [<-|H3]; [congruence|]. exact (H1 H3).
        + apply iso_text.
        + exists (dcol false d). split; [apply dec_collapse; exact D|apply iso_collapse; exact I]. }
    (* the insides of brackets *)
    assert (DB : forall x, In x B -> exists toks, tk x = Ok toks /\ Forall (fine nq nb) toks).
    { intros x Hx. destruct (SRC x Hx) as (b1 & ps & tl & Hb1 & P & Hxp). destruct (D1 b1 Hb1) as (T1 & d & D & I). apply in_map_iff in Hxp. destruct Hxp as (p & <- & Hp). 
      assert (exists d', dec res_chars (menv nq nb) (snd p) d' /\ iso U d') as (d' & D' & I').
      { clear - D I P Hp OK. revert d D I. induction P as [t H|pre ins rest ps tl H1 H2 P IH]; intros d D I; [destruct Hp|]. apply (dec_cut1 nq nb 40%N) in D; [|exact rare40|exact (plain_rare _ rare40)]. destruct D as (d1 & d2 & -> & D1 & D2). apply (dec_cut1 nq nb 41%N) in D2; [|exact rare41|exact (plain_rare _ rare41)]. destruct D2 as (d3 & d4 & -> & D3 & D4).
        apply iso_app in I. destruct I as [_ I]. apply iso_app in I. destruct I as [_ I]. apply iso_app in I. destruct I as [I3 I]. apply iso_app in I. destruct I as [_ I4]. destruct Hp as [<-|Hp]; [exists d3; auto|]. exact (IH Hp d4 D4 I4). }
      apply (tokens_fine nq nb text (snd p) d' HO); [|exact D'|exact I']. eapply tkept_trans; [exact T1|]. apply tkept_part. clear - P Hp. induction P as [t H|pre ins rest ps tl H1 H2 P IH]; [destruct Hp|]. destruct Hp as [<-|Hp]; [apply contains_r, contains_r, contains_l; exists [], []; rewrite app_nil_r; reflexivity|]. do 4 apply contains_r. auto. }
    assert (INS : forall t, fine nq nb t -> exists ts, insert_blocks U tk Q B t = Ok ts).
    { intros t [[(n & Hn & ->)|(n & Hn & ->)]|Ht]; unfold insert_blocks.
      - unfold core at 1. cbn [app]. rewrite starts_one, N.eqb_refl. apply quote_fine. exact Hn.
      - unfold core at 1 2. cbn [app]. rewrite !starts_one. change (N.eqb quote_start bracket_start) with false. change (N.eqb bracket_start bracket_start) with true. cbn [orb]. rewrite core_inside, (LSave.int_str U OK). cbn [rbind].
        destruct (nth_error B n) as [x|] eqn:E; [|apply nth_error_None in E; unfold nb in Hn; lia]. rewrite (index_nth B n x E). cbn [rbind]. destruct (DB x (nth_error_In _ _ E)) as (toks & -> & FT). cbn [rbind].
        destruct (mapM_ok (fun t => if startswith t [quote_start] then quote_block U tk Q t else Ok [t]) toks) as (ys & ->); [|eexists; reflexivity].
        intros t Ht. rewrite Forall_forall in FT. destruct (FT t Ht) as [[(m & Hm & ->)|(m & Hm & ->)]|Hf].
        + unfold core at 1. cbn [app]. rewrite starts_one, N.eqb_refl. apply quote_fine. exact Hm.
        + unfold core at 1. cbn [app]. rewrite starts_one. change (N.eqb quote_start bracket_start) with false. eexists. reflexivity.
        + destruct (plain_start t Hf) as [-> _]. eexists. reflexivity.
      - destruct (plain_start t Ht) as [-> ->]. eexists. reflexivity. }
    match goal with |- context [mapM ?f blocks2] => destruct (mapM_ok f blocks2) as (ls & ->) end; [|eexists; reflexivity].
    intros b2 Hb2. destruct (Forall2_in_r _ _ _ F2 _ Hb2) as (b1 & Hb1 & n & ps & tl & P & -> & HB). destruct (D1 b1 Hb1) as (T1 & d & D & I).
    destruct (marked_dec nq nb 40%N 41%N bracket_start bracket_end _ ps tl rare40 (plain_rare _ rare40) rare41 (plain_rare _ rare41) P n d) as [(d' & D' & I') _]; [|exact D|exact I|].
    { intros k Hk. right. exists (n + k). split; [|reflexivity]. unfold nb. apply nth_error_Some. destruct (nth_error (map snd ps) k) as [x|] eqn:E; [rewrite (HB k x E); discriminate|]. apply nth_error_None in E. rewrite map_length in E. lia. }
    destruct (tokens_fine nq nb text (collapse U false (marked bracket_start bracket_end n ps tl)) (dcol false d') HO) as (toks & -> & FT).
    { eapply tkept_trans; [exact T1|]. eapply tkept_trans; [|apply tkept_collapse]. eapply tkept_marked; [| | | | |exact P]; try (cbn; tauto). apply (reserved_not_space U OK), res_bs. }
    { apply dec_collapse; exact D'. }
    { apply iso_collapse; exact I'. }
    cbn [rbind]. apply mapM_ok. intros s Hs. destruct (mapM_ok (insert_blocks U tk Q B) s) as (parts & ->); [|eexists; reflexivity].
    intros t Ht. apply INS. rewrite Forall_forall in FT. apply FT. destruct (split_loop_in toks [] s t Hs Ht) as [[]|H]. exact H.
  Qed.
End TokSent.
