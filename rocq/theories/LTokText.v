(** The content of the tokens of an ordinary text. *)
From Coq Require Import Ascii String.
From Coq Require Import List NArith ZArith Arith Bool Lia.
From Verif Require Import PyBase Regex MTokenizer SText STok LBase LText LRegex LSub LSentencizer LRestore LTok LTokWords LDecode LGood LRule LStages LProtect LTokDec LSanit.
Import ListNotations.
Local Open Scope nat_scope.

Section TokText.
  Context (U : udb) (OK : udb_ok U).
  Notation words := (split_ws (u_space U)).
  (** *** substitutions of characters *)
  Lemma class_scan cs c b a ps tl : scan U false (Chr cs) b a ps tl -> subst_of [TLit [c]] ps tl = map (fun x => if cset_match U false cs x then c else x) a.
  Proof.
    assert (L1 : forall x, cset_match U false cs x = true -> lang U false (Chr cs) [x]) by (intros x Hx; exists x; auto).
    assert (NM : forall a, (forall x, In x a -> cset_match U false cs x = false) -> map (fun x => if cset_match U false cs x then c else x) a = a).
    { clear. induction a as [|x a IH]; intros H; [reflexivity|]. cbn. rewrite (H x (or_introl eq_refl)), IH; [reflexivity|]. intros y Hy. apply H. right. exact Hy. }
    induction 1 as [b a Hno|b pre w y st ps tl Hp Hm Hw Lw Ha Hb Hs IH].
    - unfold subst_of. cbn. symmetry. apply NM. intros x Hx. destruct (cset_match U false cs x) eqn:Ec; [|reflexivity]. exfalso. apply in_split in Hx. destruct Hx as (p & z & ->).
      apply (no_match_here U (Chr cs) (rev p ++ b) (x :: z) [x] z eq_refl); [apply (Hno p (x :: z) eq_refl)|reflexivity|apply L1; exact Ec].
    - destruct Lw as (x & -> & Hx). unfold subst_of in *. cbn [flat_map fst snd expand app]. rewrite !map_app. cbn [map]. rewrite Hx, <- !app_assoc. f_equal; [|cbn; f_equal; exact IH].
      symmetry. apply NM. intros x' Hx'. destruct (cset_match U false cs x') eqn:Ec; [|reflexivity]. exfalso. apply in_split in Hx'. destruct Hx' as (p & z & ->).
      apply (no_match_here U (Chr cs) (rev p ++ b) ((x' :: z) ++ [x] ++ y) [x'] (z ++ [x] ++ y) eq_refl); [apply (Hp p (x' :: z) eq_refl); discriminate|reflexivity|apply L1; exact Ec].
  Qed.
  Lemma class_sub cs c s : sub U false (Chr cs) [TLit [c]] s = map (fun x => if cset_match U false cs x then c else x) s.
  Proof. destruct (sub_scan U false (Chr cs) [TLit [c]] s eq_refl) as (ps & tl & H & ->). eapply class_scan. exact H. Qed.
  Definition dashes : cset := cls [CRange 8211 8211; CRange 8212 8212].
  Lemma dash_cset c : cset_match U false dashes c = true <-> is_dash c = true.
  Proof. unfold dashes. change (cls [CRange 8211 8211; CRange 8212 8212]) with (cls (map (fun c => CRange c c) [8211; 8212]%N)). rewrite cset_list. unfold is_dash. rewrite orb_true_iff, !N.eqb_eq. cbn. intuition congruence. Qed.
  Lemma one_dash_plain p s : Forall (fun c => is_dash c = false) p -> one_dash (p ++ s) = p ++ one_dash s.
  Proof. induction 1 as [|c p Hc H IH]; [reflexivity|]. cbn [app one_dash]. rewrite Hc, IH. reflexivity. Qed.
  Lemma one_dash_run w y : w <> [] -> Forall (fun c => is_dash c = true) w -> (forall c y', y = c :: y' -> is_dash c = false) -> one_dash (w ++ y) = 45%N :: one_dash y.
  Proof.
    intros Hn Hw Hy. induction Hw as [|c w Hc Hw IH]; [congruence|]. cbn [app one_dash]. rewrite Hc. destruct w as [|d w].
    - cbn [app]. destruct y as [|d y]; [reflexivity|]. rewrite (Hy d y eq_refl). reflexivity.
    - inversion Hw as [|? ? Hd _]; subst. cbn [app]. rewrite Hd. apply IH. discriminate.
  Qed.
  Lemma one_dash_app s q : (forall c, In c q -> is_dash c = false) -> one_dash (s ++ q) = one_dash s ++ q.
  Proof.
    intros Hq. assert (Fq : Forall (fun c => is_dash c = false) q) by (apply Forall_forall; exact Hq). induction s as [|c s IH]; cbn [app].
    - rewrite <- (app_nil_r q) at 1. rewrite one_dash_plain by exact Fq. cbn. rewrite app_nil_r. reflexivity.
    - cbn [one_dash]. rewrite IH. destruct (is_dash c); [|reflexivity]. destruct s as [|d s]; cbn [app].
      + destruct q as [|d q]; [reflexivity|]. rewrite (Hq d (or_introl eq_refl)). reflexivity.
      + destruct (is_dash d); reflexivity.
  Qed.
  Lemma visible_app a b : visible U (a ++ b) = visible U a ++ visible U b.
  Proof. apply filter_app. Qed.
  Lemma dash_scan b a ps tl : scan U false (plus (Chr dashes)) b a ps tl -> visible U (subst_of [TLit (lit " - ")] ps tl) = visible U (one_dash a).
  Proof.
    assert (L1 : forall x, is_dash x = true -> lang U false (plus (Chr dashes)) [x]) by (intros x Hx; apply plus_lang; split; [discriminate|constructor; [apply dash_cset; exact Hx|constructor]]).
    induction 1 as [b a Hno|b pre w y st ps tl Hp Hm Hw Lw Ha Hb Hs IH].
    - unfold subst_of. cbn [flat_map app]. rewrite <- (app_nil_r a) at 2. rewrite one_dash_plain; [cbn; rewrite app_nil_r; reflexivity|]. apply Forall_forall. intros x Hx. destruct (is_dash x) eqn:Ec; [|reflexivity]. exfalso. apply in_split in Hx. destruct Hx as (p & z & ->).
      apply (no_match_here U (plus (Chr dashes)) (rev p ++ b) (x :: z) [x] z eq_refl); [apply (Hno p (x :: z) eq_refl)|reflexivity|apply L1; exact Ec].
    - rewrite one_dash_plain.
      + apply plus_lang in Lw. destruct Lw as [_ Lw]. rewrite one_dash_run; [|exact Hw|eapply Forall_impl; [|exact Lw]; intros c Hc; apply dash_cset; exact Hc|].
        * unfold subst_of in *. cbn [flat_map fst snd expand]. rewrite <- !app_assoc. rewrite (visible_app pre), (visible_app pre). f_equal. change (visible U (([32; 45; 32]%N ++ []) ++ flat_map (fun p => fst p ++ expand [TLit (lit " - ")] (fst (snd p)) (snd (snd p))) ps ++ tl) = visible U ([45%N] ++ one_dash y)). rewrite (visible_app ([32; 45; 32]%N ++ [])), (visible_app [45%N]). rewrite IH. cbn. rewrite (space32 U OK), (printable_space U OK 45%N) by lia. reflexivity.
        * intros c y' Ey. unfold match_at, plus in Hm. rewrite m_seq in Hm. apply m_some in Hm. destruct Hm as (st1 & _ & Hm). apply (greedy_stop U false dashes) in Hm. rewrite Ha, Ey in Hm. destruct (is_dash c) eqn:Ec; [|reflexivity]. apply dash_cset in Ec. congruence.
      + apply Forall_forall. intros x' Hx'. destruct (is_dash x') eqn:Ec; [|reflexivity]. exfalso. apply in_split in Hx'. destruct Hx' as (p & z & ->).
        apply (no_match_here U (plus (Chr dashes)) (rev p ++ b) ((x' :: z) ++ w ++ y) [x'] (z ++ w ++ y) eq_refl); [apply (Hp p (x' :: z) eq_refl); discriminate|reflexivity|apply L1; exact Ec].
  Qed.
  Lemma subst_contains k t0 r b a ps tl : k <> [] -> t0 <> [] -> (forall c, In c t0 -> ~ In c k) -> scan U false r b a ps tl -> forall p, contains k (p ++ subst_of [TLit t0] ps tl) -> contains k (p ++ a).
  Proof.
    intros Hn Ht Hd H. induction H as [b a Hno|b pre w y st ps tl Hp Hm Hw Lw Ha Hb Hs IH]; intros p F; [exact F|]. assert (ES : subst_of [TLit t0] ((pre, (w, st)) :: ps) tl = pre ++ t0 ++ subst_of [TLit t0] ps tl).
    { unfold subst_of. cbn [flat_map fst snd]. rewrite <- !app_assoc. f_equal. f_equal. cbn. apply app_nil_r. }
    rewrite ES in F. assert (G : (exists u v, p ++ pre = u ++ k ++ v) \/ (exists u v, subst_of [TLit t0] ps tl = u ++ k ++ v)).
    { apply (around (fun c => In c k) k (p ++ pre) t0).
      - exact Hn.
      - apply Forall_forall. auto.
      - exact Ht.
      - apply Forall_forall. exact Hd.
      - destruct F as (u & v & F). exists u, v. rewrite <- app_assoc. exact F. }
    destruct G as [(u & v & E)|G].
    - exists u, (v ++ w ++ y). rewrite app_assoc, E, <- !app_assoc. reflexivity.
    - apply (IH []) in G. cbn in G. destruct G as (u & v & ->). exists (p ++ pre ++ w ++ u), v. rewrite <- !app_assoc. reflexivity.
  Qed.

  (** *** the sanitized text *)
  Definition rule1 : cset := cls [CRange 8216 8216; CRange 8217 8217; CRange 8242 8242].
  Definition rule2 : cset := cls [CRange 8220 8220; CRange 8221 8221; CRange 8243 8243].
  Lemma class1 c : cset_match U false rule1 c = ((c =? 8216)%N || (c =? 8217)%N || (c =? 8242)%N).
  Proof. apply eq_iff_eq_true. change rule1 with (cls (map (fun c => CRange c c) [8216; 8217; 8242]%N)). rewrite cset_list, !orb_true_iff, !N.eqb_eq. cbn. intuition congruence. Qed.
  Lemma class2 c : cset_match U false rule2 c = ((c =? 8220)%N || (c =? 8221)%N || (c =? 8243)%N).
  Proof. apply eq_iff_eq_true. change rule2 with (cls (map (fun c => CRange c c) [8220; 8221; 8243]%N)). rewrite cset_list, !orb_true_iff, !N.eqb_eq. cbn. intuition congruence. Qed.
  Lemma straight_rules s : map (fun x => if cset_match U false rule2 x then 34%N else x) (map (fun x => if cset_match U false rule1 x then 39%N else x) s) = map straight s.
  Proof.
    rewrite map_map. apply map_ext. intros c. unfold straight. rewrite !class2, class1. destruct ((c =? 8216)%N || (c =? 8217)%N || (c =? 8242)%N); [reflexivity|]. reflexivity.
  Qed.
  Definition dash_sub (s : str) : str := sub U false (plus (Chr dashes)) [TLit (lit " - ")] s.
  Lemma sanitize_form t : sanitize U tk_sanitization t = join (lit " ") (words (dash_sub (map straight (strip (u_space U) t)))).
  Proof. rewrite <- straight_rules. rewrite <- (class_sub rule1 39%N), <- (class_sub rule2 34%N). reflexivity. Qed.
  Lemma visible_join ws : visible U (join (lit " ") ws) = visible U (concat ws).
  Proof.
    induction ws as [|w [|w2 ws] IH]; [reflexivity|cbn; rewrite app_nil_r; reflexivity|]. change (join (lit " ") (w :: w2 :: ws)) with (w ++ [32%N] ++ join (lit " ") (w2 :: ws)). cbn [concat] in *. rewrite !visible_app in *. rewrite IH. cbn. rewrite (space32 U OK). reflexivity.
  Qed.
  Lemma visible_twice s : visible U (visible U s) = visible U s.
  Proof. unfold visible. induction s as [|c s IH]; [reflexivity|]. cbn. destruct (negb (u_space U c)) eqn:E; cbn; [rewrite E, IH; reflexivity|exact IH]. Qed.
  Lemma visible_words s : visible U (join (lit " ") (words s)) = visible U s.
  Proof. rewrite visible_join, split_ws_concat. apply visible_twice. Qed.
  Lemma space_not c : u_space U c = true -> straight c = c /\ is_dash c = false.
  Proof.
    intros H. assert (K : forall d, In d code_symbols -> (c =? d)%N = false). { intros d Hd. apply N.eqb_neq. intros ->. rewrite (ok_symbols_space _ OK d Hd) in H. discriminate. }
    unfold straight, is_dash. rewrite !K by (cbn; tauto). auto.
  Qed.
  Lemma visible_space p : Forall (fun c => u_space U c = true) p -> visible U p = [].
  Proof. induction 1 as [|c p Hc H IH]; [reflexivity|]. cbn. rewrite Hc. exact IH. Qed.
  Lemma straight_space p : Forall (fun c => u_space U c = true) p -> map straight p = p.
  Proof. induction 1 as [|c p Hc H IH]; [reflexivity|]. cbn. rewrite (proj1 (space_not c Hc)), IH. reflexivity. Qed.
  Lemma dash_space p : Forall (fun c => u_space U c = true) p -> Forall (fun c => is_dash c = false) p.
  Proof. intros H. eapply Forall_impl; [|exact H]. intros c Hc. exact (proj2 (space_not c Hc)). Qed.
  Lemma visible_sanitize t : visible U (sanitize U tk_sanitization t) = visible U (one_dash (map straight t)).
  Proof.
    rewrite sanitize_form, visible_words. unfold dash_sub. destruct (sub_scan U false (plus (Chr dashes)) [TLit (lit " - ")] (map straight (strip (u_space U) t)) eq_refl) as (ps & tl & H & ->). rewrite (dash_scan _ _ _ _ H).
    destruct (strip_split U t) as (p & q & E & Hp & Hq). assert (EM : map straight t = p ++ map straight (strip (u_space U) t) ++ q) by (revert E; generalize (strip (u_space U) t); intros x ->; rewrite (map_app straight p), (map_app straight x), (straight_space p Hp), (straight_space q Hq); reflexivity). rewrite EM, one_dash_plain by (apply dash_space; exact Hp). pose proof (dash_space q Hq) as Dq. rewrite Forall_forall in Dq. rewrite one_dash_app by exact Dq.
    rewrite !visible_app, (visible_space p Hp), (visible_space q Hq), app_nil_r. reflexivity.
  Qed.

  (** *** numbers and quotation marks *)
  Lemma contains_words k s : k <> [] -> ~ In 32%N k -> contains k (join (lit " ") (words s)) -> contains k s.
  Proof.
    intros Hn H32 Hc. assert (G : exists w, In w (words s) /\ contains k w).
    { clear -Hn H32 Hc. induction (words s) as [|w [|w2 ws] IH].
      - destruct Hc as (x & y & E). cbn in E. destruct x; [|discriminate]. destruct k; [congruence|discriminate].
      - exists w. split; [left; reflexivity|exact Hc].
      - change (join (lit " ") (w :: w2 :: ws)) with (w ++ [32%N] ++ join (lit " ") (w2 :: ws)) in Hc.
        assert (G : (exists u v, w = u ++ k ++ v) \/ (exists u v, join (lit " ") (w2 :: ws) = u ++ k ++ v)).
        { apply (around (fun c => In c k) k w [32%N]); [exact Hn|apply Forall_forall; auto|discriminate|constructor; [exact H32|constructor]|exact Hc]. }
        destruct G as [G|G]; [exists w; split; [left; reflexivity|exact G]|]. destruct (IH G) as (w3 & Hw & K). exists w3. split; [right; exact Hw|exact K]. }
    destruct G as (w & Hw & (x & y & ->)). destruct (words_of_total U s) as (ws & W). rewrite (words_of_fun U s ws W) in Hw. clear Hc. induction W as [s H|s w rest ws Hs Hne Hww Hr W IH]; [destruct Hw|]. destruct Hw as [->|Hw].
    - exists (s ++ x), (y ++ rest). rewrite <- !app_assoc. reflexivity.
    - destruct (IH Hw) as (u & v & ->). exists (s ++ w ++ u), v. rewrite <- !app_assoc. reflexivity.
  Qed.
  Lemma digit_straight c : u_digit U (straight c) = true \/ straight c = 44%N \/ straight c = 46%N -> straight c = c.
  Proof.
    assert (D39 : u_digit U 39%N = false) by (rewrite (ok_digit _ OK) by lia; reflexivity). assert (D34 : u_digit U 34%N = false) by (rewrite (ok_digit _ OK) by lia; reflexivity).
    unfold straight. destruct ((c =? 8216)%N || (c =? 8217)%N || (c =? 8242)%N); [intros [H|[H|H]]; congruence|]. destruct ((c =? 8220)%N || (c =? 8221)%N || (c =? 8243)%N); [intros [H|[H|H]]; congruence|]. reflexivity.
  Qed.
  Lemma contains_map {A} (f : A -> char) k s : (exists x y, map f s = x ++ k ++ y) -> exists k', map f k' = k /\ exists x y, s = x ++ k' ++ y.
  Proof.
    intros (x & y & E). apply map_eq_app in E. destruct E as (a & b & -> & _ & E). apply map_eq_app in E. destruct E as (c & d & -> & E & _). exists c. split; [exact E|]. exists a, d. reflexivity.
  Qed.
  Lemma sanitized_number n q t : numtext U n -> (q = 39%N \/ q = 34%N) -> contains (n ++ [q]) (sanitize U tk_sanitization t) -> exists s, number_quote U s /\ contains s t.
  Proof.
    intros (c & m & -> & Hc & Hm) Hq H. rewrite sanitize_form in H. assert (D : forall x, In x (c :: m) -> u_digit U x = true \/ x = 44%N \/ x = 46%N) by (rewrite Forall_forall in Hm; intros x [<-|Hx]; auto).
    assert (ND : forall x, In x [32; 45]%N -> ~ In x ((c :: m) ++ [q])).
    { intros x Hx Hi. rewrite in_app_iff in Hi. assert (u_digit U x = false) as Dx by (rewrite (ok_digit _ OK) by (cbn in Hx; intuition (subst; lia)); cbn in Hx; intuition (subst; reflexivity)). destruct Hi as [Hi|[Hi|[]]].
      - destruct (D x Hi) as [K|[K|K]]; [congruence| |]; subst; cbn in Hx; intuition discriminate.
      - subst x. cbn in Hx. intuition congruence. }
    apply contains_words in H; [|discriminate|apply ND; cbn; auto]. unfold dash_sub in H. destruct (sub_scan U false (plus (Chr dashes)) [TLit (lit " - ")] (map straight (strip (u_space U) t)) eq_refl) as (ps & tl & Hs & E). rewrite E in H.
    apply (subst_contains ((c :: m) ++ [q]) (lit " - ") _ _ _ _ _ ltac:(discriminate) ltac:(discriminate) ltac:(intros x Hx; apply ND; cbn in Hx |- *; intuition congruence) Hs []) in H. cbn [app] in H.
    apply contains_map in H. destruct H as (k' & Ek & (x & y & Et)). destruct (strip_split U t) as (p & q0 & E0 & _ & _). rewrite Et in E0.
    change (c :: m ++ [q]) with ((c :: m) ++ [q]) in Ek. apply map_eq_app in Ek. destruct Ek as (n' & q' & -> & En & Eq). destruct q' as [|q1 [|]]; try discriminate. injection Eq as Eq.
    assert (n' = c :: m) as ->.
    { rewrite <- En. clear -En D OK. assert (K : forall x, In x n' -> straight x = x) by (intros x Hx; apply digit_straight, D; rewrite <- En; apply in_map; exact Hx). clear -K. induction n' as [|x n' IH]; [reflexivity|]. cbn. rewrite (K x (or_introl eq_refl)). f_equal. apply IH. intros z Hz. apply K. right. exact Hz. }
    exists ((c :: m) ++ [q1]). split; [exists c, m, q1; repeat split; auto; rewrite Eq; tauto|]. exists (p ++ x), (y ++ q0). rewrite E0, <- !app_assoc. reflexivity.
  Qed.

  (** *** tokens *)
  Lemma wkept d0 d1 : kept U d0 d1 -> nowww U d0 -> nowww U d1.
  Proof.
    intros K H x y z Hx Hy Hz F. apply (H x y z Hx Hy Hz). apply (K [x; y; z; 46%N]); [discriminate| |exact F].
    assert (W : forall a, is_w U a -> ~ In a inserted).
    { intros a Ha Hi. assert (Hl : (a < 128)%N) by (cbn in Hi; intuition (subst; lia)). destruct (ok_var_letter _ OK a 119%N Hl Ha ltac:(lia)) as [E|E]; cbn in Hi; repeat (destruct Hi as [<-|Hi]; [discriminate E|]); destruct Hi. }
    intros c Hc. cbn in Hc. destruct Hc as [<-|[<-|[<-|[<-|[]]]]]; auto. cbn. intuition discriminate.
  Qed.
  Lemma tokenize_dec rs (RS : incl rs res_chars) env0 (E0 : forall a v, In (a, v) env0 -> framed rs a /\ ~ In 95%N a) ms t d0 : t <> [] -> dec rs env0 t d0 -> good U ms d0 -> ~ In (C 47%N) d0 -> nowww U d0 ->
    exists d1, dec rs env0 (sanitize U tk_sanitization t) d1 /\ good U ms d1 /\ kept U d0 d1 /\
      forall (Q : Prop), (Q -> forall n q, numtext U n -> (q = 39%N \/ q = 34%N) -> ~ factor (map C (n ++ [q])) d1) -> (Q -> ~ has [42; 42]%N (nsp U d0)) ->
      exists T d, tokenize U t = Ok (words T) /\ dec rs env0 T d /\ good U ms d /\ (Q -> nsp U d = nsp U d1).
  Proof.
    intros Hn Hd HG H47 HW. assert (FE : framed_env rs env0) by (intros a v Hi; apply (E0 a v Hi)).
    destruct (sanitize_dec U OK rs RS env0 FE ms t d0 Hd HG) as (d1 & D1 & G1 & K). exists d1. split; [exact D1|]. split; [exact G1|]. split; [exact K|]. intros Q Q1 Q2.
    assert (N47 : ~ In (C 47%N) d1).
    { intros Hi. apply in_split in Hi. destruct Hi as (a & b & E). apply H47. destruct (proj1 (K [47%N] ltac:(discriminate) ltac:(intros c [<-|[]]; cbn; intuition discriminate))) as (a' & b' & E'); [exists a, b; exact E|]. rewrite E', !in_app_iff. right. left. left. reflexivity. }
    destruct (protect_text_dec U OK rs RS env0 E0 _ d1 D1 N47 (wkept _ _ K HW)) as (k & prot & t' & EP & HN & D2).
    destruct (tokenize_ok U OK t) as (toks & ET).
    destruct (tokenize_stages U OK rs RS env0 E0 t k prot t' ms Q d1 toks Hn EP HN Q1) as (T & d & -> & D & G & E); [|exact D2|exact G1|exact ET|exists T, d; auto].
    intros q Hh. apply (Q2 q). apply (K [42; 42]%N); [discriminate|intros c [<-|[<-|[]]]; cbn; intuition discriminate|exact Hh].
  Qed.

  Lemma dec_nothing t d : dec [] [] t d -> d = map C t.
  Proof. induction 1 as [|c t d Hc H IH|a v t d Hi]; [reflexivity|cbn; congruence|destruct Hi]. Qed.
  Lemma nsp_visible s : nsp U (map C s) = visible U s.
  Proof. rewrite nsp_C. reflexivity. Qed.
  Lemma marks_text s : marks (map C s) = [].
  Proof. induction s as [|c s IH]; [reflexivity|exact IH]. Qed.
  Lemma factor_map k s : factor (map C k) (map C s) -> contains k s.
  Proof.
    intros (x & y & E). apply map_eq_app in E. destruct E as (a & b & -> & _ & E). apply map_eq_app in E. destruct E as (c & d & -> & E & _). exists a, d. f_equal. f_equal. clear -E. revert c E. induction k as [|x k IH]; intros [|y c] E; try discriminate; [reflexivity|]. injection E as -> E. f_equal. apply IH. exact E.
  Qed.
  Lemma iso_text s : iso U (map C s).
  Proof.
    unfold iso. assert (G : forall s q, q <> QM -> run U q (map C s) <> None); [|apply G; discriminate]. clear. induction s as [|c s IH]; intros q Hq; [discriminate|]. cbn. destruct q; try congruence; destruct (u_space U c); apply IH; discriminate.
  Qed.
  Lemma ordinary_good t : ordinary U t -> good U [] (map C t) /\ ~ In (C 47%N) (map C t) /\ nowww U (map C t) /\ dec [] [] t (map C t).
  Proof.
    intros (H95 & H47 & HW & K1 & K2 & K3). assert (I : forall c, In (C c) (map C t) -> In c t) by (intros c Hc; apply in_map_iff in Hc; destruct Hc as (x & E & Hx); injection E as ->; exact Hx).
    split; [|split; [|split]].
    - constructor; [apply marks_text|apply iso_text| |intros Hi; exact (H95 (I _ Hi))]. intros k Hk Hh. rewrite nsp_visible in Hh. destruct Hh as (x & y & E). cbn in Hk. destruct Hk as [<-|[<-|[<-|[<-|[<-|[]]]]]].
      + apply K1. exists x, y. exact E.
      + apply K2. exists x, y. exact E.
      + apply K3. exists x, y. exact E.
      + apply K2. exists (x ++ lit "R"), y. rewrite E, <- app_assoc. reflexivity.
      + apply K3. exists (x ++ lit "R"), y. rewrite E, <- app_assoc. reflexivity.
    - intros Hi. exact (H47 (I _ Hi)).
    - intros x y z Hx Hy Hz F. apply factor_map in F. apply (HW [x; y; z; 46%N]); [|exact F]. exists x, y, z. split; [reflexivity|]. repeat constructor; assumption.
    - apply dec_plain. apply Forall_forall. intros c Hc [<-|[]]. exact (H95 Hc).
  Qed.
  Theorem content t tokens : t <> [] -> ordinary U t -> (forall s, number_quote U s -> ~ contains s t) -> ~ contains (lit "**") (visible U t) -> tokenize U t = Ok tokens ->
    concat tokens = visible U (one_dash (map straight t)).
  Proof.
    intros Hn HO HQ HS ET. destruct (ordinary_good t HO) as (G & H47 & HW & D).
    destruct (tokenize_dec [] ltac:(intros x []) [] ltac:(intros a v []) [] t (map C t) Hn D G H47 HW) as (d1 & D1 & G1 & K & F).
    apply dec_nothing in D1. subst d1. destruct (F True) as (T & d & E & DT & GT & EQ).
    - intros _ n q H1 H2 Hf. apply factor_map in Hf. destruct (sanitized_number n q t H1 H2 Hf) as (s & A & B). exact (HQ s A B).
    - intros _ (x & y & Eh). rewrite nsp_visible in Eh. apply HS. exists x, y. exact Eh.
    - rewrite ET in E. apply ok_inj in E. subst tokens. rewrite split_ws_concat. apply dec_nothing in DT. subst d. specialize (EQ I). rewrite !nsp_visible in EQ. change (filter (fun c => negb (u_space U c)) T) with (visible U T). rewrite EQ. apply visible_sanitize.
  Qed.
  Theorem no_underscore t tokens token : ordinary U t -> tokenize U t = Ok tokens -> In token tokens -> ~ In 95%N token.
  Proof.
    intros HO ET Hi H95. destruct t as [|c t0]; [injection ET as <-; destruct Hi as [<-|[]]; destruct H95|]. set (t := c :: t0) in *. destruct (ordinary_good t HO) as (G & H47 & HW & D).
    destruct (tokenize_dec [] ltac:(intros x []) [] ltac:(intros a v []) [] t (map C t) ltac:(discriminate) D G H47 HW) as (d1 & D1 & G1 & K & F).
    destruct (F False) as (T & d & E & DT & GT & _); [tauto|tauto|]. rewrite ET in E. apply ok_inj in E. subst tokens. apply dec_nothing in DT. subst d. apply (g_no95 _ _ _ GT). apply in_map.
    assert (In 95%N (concat (words T))) as H by (apply in_concat; eauto). rewrite split_ws_concat in H. apply filter_In in H. tauto.
  Qed.
End TokText.

(** *** a sufficient check of the conditions, for examples *)
Fixpoint adj (P : char -> char -> bool) (s : str) : bool :=
  match s with a :: ((b :: _) as s') => P a b || adj P s' | _ => false end.
Lemma adj_in (P : char -> char -> bool) x a b y : P a b = true -> adj P (x ++ a :: b :: y) = true.
Proof. intros H. induction x as [|c x IH]; [cbn; rewrite H; reflexivity|]. cbn [app adj]. destruct (x ++ a :: b :: y) eqn:E; [destruct x; discriminate|]. rewrite IH. apply orb_true_r. Qed.
Fixpoint partb (k s : str) : bool := startswith s k || match s with [] => false | _ :: s' => partb k s' end.
Lemma partb_in k x y : partb k (x ++ k ++ y) = true.
Proof.
  induction x as [|c x IH]; cbn [app partb]; [|rewrite IH; apply orb_true_r]. assert (startswith (k ++ y) k = true) as H.
  { unfold startswith. induction k as [|c k IH]; [reflexivity|]. cbn. rewrite N.eqb_refl. exact IH. }
  destruct (k ++ y); cbn [partb]; rewrite H; reflexivity.
Qed.
Definition ordinaryb (U : udb) (t : str) : bool :=
  negb (existsb (fun c => (c =? 95)%N || (c =? 47)%N) t) && negb (adj (fun a b => existsb (N.eqb 119) (u_variants U a) && (b =? 46)%N) t) &&
  negb (partb (lit "NSD") (visible U t)) && negb (partb (lit "NSGE") (visible U t)) && negb (partb (lit "NSLE") (visible U t)).
Lemma ordinaryb_ok U t : ordinaryb U t = true -> ordinary U t.
Proof.
  unfold ordinaryb. repeat rewrite andb_true_iff. rewrite !negb_true_iff. intros ((((H1 & H2) & H3) & H4) & H5).
  assert (NI : forall c, (c = 95%N \/ c = 47%N) -> ~ In c t). { intros c Hc Hi. assert (existsb (fun c => (c =? 95)%N || (c =? 47)%N) t = true) as K; [|congruence]. apply existsb_exists. exists c. split; [exact Hi|]. destruct Hc as [-> | ->]; reflexivity. }
  split; [apply NI; auto|]. split; [apply NI; auto|]. split.
  - intros s (a & b & c & -> & F) (x & y & E). inversion F as [|? ? _ F1]; subst. inversion F1 as [|? ? _ F2]; subst. inversion F2 as [|? ? Hc _]; subst.
    replace (x ++ [a; b; c; 46%N] ++ y) with ((x ++ [a; b]) ++ c :: 46%N :: y) in H2 by (rewrite <- app_assoc; reflexivity).
    rewrite adj_in in H2; [discriminate|]. apply andb_true_iff. split; [|reflexivity]. apply mem_in. exact Hc.
  - split; [|split]; intros (x & y & E); rewrite E, partb_in in *; discriminate.
Qed.
Lemma number_quoteb U t : adj (fun a b => (u_digit U a || (a =? 44)%N || (a =? 46)%N) && ((straight b =? 39)%N || (straight b =? 34)%N)) t = false -> forall s, number_quote U s -> ~ contains s t.
Proof.
  intros H s (c & m & q & -> & Hc & Hm & Hq) (x & y & ->). assert (exists x' a, x ++ (c :: m ++ [q]) ++ y = x' ++ a :: q :: y /\ (u_digit U a = true \/ a = 44%N \/ a = 46%N)) as (x' & a & E & Ha).
  { destruct m as [|b m _] using rev_ind.
    - exists x, c. split; [reflexivity|auto].
    - exists (x ++ c :: m), b. split; [rewrite <- !app_assoc; cbn; rewrite <- !app_assoc; reflexivity|]. apply Forall_app in Hm. destruct Hm as [_ Hm]. inversion Hm; assumption. }
  rewrite E, adj_in in H; [discriminate|]. apply andb_true_iff. split.
  - destruct Ha as [->|[-> | ->]]; rewrite ?orb_true_r; reflexivity.
  - destruct Hq as [-> | ->]; reflexivity.
Qed.
Lemma partb_ok k s : partb k s = false -> ~ contains k s.
Proof. intros H (x & y & ->). rewrite partb_in in H. discriminate. Qed.
