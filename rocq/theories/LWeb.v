(** Proofs about the tokenizer: replacing inside words, and greedy matches. *)
From Coq Require Import Ascii String.
From Coq Require Import List NArith ZArith Arith Bool Lia.
From Verif Require Import PyBase Regex MTokenizer STok LBase LText LUdb LRestore LRegex LSub LTok LTokWords.
Import ListNotations.
Local Open Scope nat_scope.

(** ** replace *)
Section Replace.
  Context (old new : str) (Ho : old <> []).
  Lemma rf_fuel : forall n m s, length s <= n -> length s <= m -> replace_fuel n old new s = replace_fuel m old new s.
  Proof.
    induction n as [|n IH]; intros m s Hn Hm.
    - destruct s; [|cbn in Hn; lia]. destruct m; reflexivity.
    - destruct m as [|m]; [destruct s; [reflexivity|cbn in Hm; lia]|]. cbn [replace_fuel]. destruct s as [|c s]; [reflexivity|]. cbn [length] in *. destruct (strip_prefix old (c :: s)) as [rest|] eqn:E.
      + f_equal. apply strip_prefix_some in E. apply (f_equal (@length N)) in E. rewrite app_length in E. destruct old; [congruence|]. cbn [length] in *. apply IH; lia.
      + f_equal. apply IH; lia.
  Qed.
  Lemma replace_nil : replace [] old new = [].
  Proof. reflexivity. Qed.
  Lemma replace_hit rest : replace (old ++ rest) old new = new ++ replace rest old new.
  Proof.
    unfold replace. assert (E : strip_prefix old (old ++ rest) = Some rest) by (apply strip_prefix_some; reflexivity). destruct (old ++ rest) as [|c s] eqn:El; [apply app_eq_nil in El; tauto|]. cbn [length replace_fuel]. rewrite E. f_equal. apply (f_equal (@length N)) in El. rewrite app_length in El. cbn [length] in El. apply rf_fuel; [|lia]. destruct old; [congruence|]. cbn [length] in El. lia.
  Qed.
  Lemma replace_miss c s : (forall rest, c :: s <> old ++ rest) -> replace (c :: s) old new = c :: replace s old new.
  Proof. intros H. apply strip_prefix_none in H. unfold replace. cbn [length replace_fuel]. rewrite H. reflexivity. Qed.
  Lemma replace_id s : (forall x y, s <> x ++ old ++ y) -> replace s old new = s.
  Proof.
    induction s as [|c s IH]; intros H; [reflexivity|]. rewrite replace_miss; [f_equal; apply IH; intros x y E; apply (H (c :: x) y); cbn [app]; f_equal; exact E|]. intros rest E. exact (H [] rest E).
  Qed.
  Lemma replace_split c : ~ In c old -> forall n x y, length x <= n -> replace (x ++ c :: y) old new = replace x old new ++ c :: replace y old new.
  Proof.
    intros Hc. assert (H0 : forall y rest, c :: y <> old ++ rest) by (intros y rest E; destruct old as [|d o]; [congruence|]; injection E as -> _; apply Hc; left; reflexivity).
    induction n as [|n IH]; intros x y Hx.
    - destruct x; [|cbn in Hx; lia]. cbn [app]. apply replace_miss. apply H0.
    - destruct x as [|d x]; [cbn [app]; apply replace_miss; apply H0|]. cbn [length] in Hx. destruct (strip_prefix old (d :: x)) as [rest|] eqn:E.
      + apply strip_prefix_some in E. rewrite E, <- app_assoc, !replace_hit, <- app_assoc. f_equal. apply IH. apply (f_equal (@length N)) in E. rewrite app_length in E. destruct old; [congruence|]. cbn [length] in E. lia.
      + pose proof (proj1 (strip_prefix_none _ _) E) as E'. cbn [app]. rewrite (replace_miss d x E'). cbn [app]. rewrite replace_miss; [f_equal; apply IH; lia|]. intros rest F. change (d :: x ++ c :: y) with ((d :: x) ++ c :: y) in F. destruct (app_eq_app _ _ _ _ F) as (l & [[F1 F2]|[F1 F2]]); [exact (E' _ F1)|]. destruct l as [|e l]; [rewrite app_nil_r in F1; apply (E' []); rewrite app_nil_r; symmetry; exact F1|]. injection F2 as <- _. apply Hc. rewrite F1. apply in_or_app. right. left. reflexivity.
  Qed.
  Lemma replace_join ws : ~ In 32%N old -> replace (join [32%N] ws) old new = join [32%N] (map (fun w0 => replace w0 old new) ws).
  Proof.
    intros Hc. induction ws as [|w0 [|w1 ws] IH]; [reflexivity|reflexivity|]. change (join [32%N] (w0 :: w1 :: ws)) with (w0 ++ 32%N :: join [32%N] (w1 :: ws)). rewrite (replace_split 32%N Hc (length w0)) by lia. rewrite IH. reflexivity.
  Qed.
  Lemma replace_in c s : In c (replace s old new) -> In c s \/ In c new.
  Proof.
    assert (G : forall n s, length s <= n -> In c (replace s old new) -> In c s \/ In c new).
    { clear s. induction n as [|n IH]; intros s Hn; [destruct s; [auto|cbn in Hn; lia]|]. destruct s as [|d s]; [auto|]. cbn [length] in Hn. destruct (strip_prefix old (d :: s)) as [rest|] eqn:E.
      - apply strip_prefix_some in E. rewrite E, replace_hit. intros H. apply in_app_iff in H. destruct H as [H|H]; [auto|]. destruct (IH rest) as [F|F]; [|exact H|left; apply in_or_app; auto|auto]. apply (f_equal (@length N)) in E. rewrite app_length in E. destruct old; [congruence|]. cbn [length] in E. lia.
      - rewrite replace_miss by (apply strip_prefix_none; exact E). intros [<-|H]; [left; left; reflexivity|]. destruct (IH s) as [F|F]; [lia|exact H|left; right; exact F|auto]. }
    exact (G (length s) s (le_n _)).
  Qed.
  Lemma replace_nonempty s : new <> [] -> s <> [] -> replace s old new <> [].
  Proof.
    intros Hn Hs. destruct s as [|c s]; [congruence|]. destruct (strip_prefix old (c :: s)) as [rest|] eqn:E.
    - apply strip_prefix_some in E. rewrite E, replace_hit. intros F. apply app_eq_nil in F. tauto.
    - rewrite replace_miss by (apply strip_prefix_none; exact E). discriminate.
  Qed.
End Replace.
Section Words.
  Context (U : udb).
  Notation words t := (split_ws (u_space U) t).
  Lemma replace_spaces old new s y : old <> [] -> Forall (fun c => u_space U c = false) old -> Forall (fun c => u_space U c = true) s -> replace (s ++ y) old new = s ++ replace y old new.
  Proof.
    intros Ho So Hs. induction Hs as [|c s Hc Hs IH]; [reflexivity|]. cbn [app]. rewrite replace_miss; [f_equal; exact IH|]. intros rest E. destruct old as [|d o]; [congruence|]. injection E as -> _. inversion So; subst. congruence.
  Qed.
  Lemma words_replace old new : old <> [] -> new <> [] -> Forall (fun c => u_space U c = false) old -> Forall (fun c => u_space U c = false) new -> forall t, words (replace t old new) = map (fun w0 => replace w0 old new) (words t).
  Proof.
    intros Ho Hn So Sn t. destruct (words_of_total U t) as (ws & W). rewrite (words_of_fun U t ws W). apply words_of_fun. induction W as [s H|s w0 rest l Hs Hn0 Hw Hr W IH].
    - cbn [map]. rewrite replace_id; [apply words_none; exact H|]. intros x y E. destruct old as [|d o]; [congruence|]. inversion So; subst. rewrite H in H2; [discriminate H2|]. apply in_or_app. right. left. reflexivity.
    - rewrite replace_spaces; [|exact Ho|exact So|apply Forall_forall; exact Hs]. cbn [map].
      assert (E : exists rest', replace (w0 ++ rest) old new = replace w0 old new ++ rest' /\ rest' = replace rest old new /\ (forall c r, rest' = c :: r -> u_space U c = true)).
      { exists (replace rest old new). destruct rest as [|c rest].
        - rewrite !app_nil_r. split; [reflexivity|]. split; [reflexivity|]. discriminate.
        - pose proof (Hr c rest eq_refl) as Hc. assert (Nc : ~ In c old) by (intros F; rewrite Forall_forall in So; rewrite So in Hc; [discriminate Hc|exact F]). assert (M : replace (c :: rest) old new = c :: replace rest old new) by (apply (replace_split old new Ho c Nc 0 [] rest (le_n 0))).
          split; [rewrite M; exact (replace_split old new Ho c Nc (length w0) w0 rest (le_n _))|]. split; [reflexivity|]. intros c' r E. rewrite M in E. injection E as <- _. exact Hc. }
      destruct E as (rest' & E1 & E2 & E3). rewrite E1. constructor; [exact Hs|apply replace_nonempty; assumption| |exact E3|rewrite E2; exact IH].
      intros c Hc. apply replace_in in Hc; [|exact Ho]. destruct Hc as [Hc|Hc]; [apply Hw; exact Hc|rewrite Forall_forall in Sn; apply Sn; exact Hc].
  Qed.
  Definition restores (prot : list (str * str)) (t : str) : str := fold_left (fun t kv => replace t (fst kv) (snd kv)) prot t.
  Definition spaceless (s : str) : Prop := s <> [] /\ Forall (fun c => u_space U c = false) s.
  Lemma words_restores prot : Forall (fun kv => spaceless (fst kv) /\ spaceless (snd kv)) prot -> forall t, words (restores prot t) = map (restores prot) (words t).
  Proof.
    induction 1 as [|[k v] prot [[H1 H2] [H3 H4]] HP IH]; intros t; [symmetry; apply map_id|]. unfold restores in *. cbn [fold_left fst snd] in *. rewrite IH, words_replace by assumption. rewrite map_map. reflexivity.
  Qed.
End Words.
(** ** greedy matches *)
Section Greedy.
  Context (U : udb) (ic : bool).
  Notation m := (m U ic).
  (** [r] matches [x] first when [x] is before [y] *)
  Definition gm (r : re) (b x y : str) : Prop := forall cp k, (forall cp', k {| bef := rev x ++ b; aft := y; caps := cp' |} <> None) ->
    exists cp', m r {| bef := b; aft := x ++ y; caps := cp |} k = k {| bef := rev x ++ b; aft := y; caps := cp' |}.
  Lemma gm_seq r1 r2 b x1 x2 y : gm r1 b x1 (x2 ++ y) -> gm r2 (rev x1 ++ b) x2 y -> gm (Seq r1 r2) b (x1 ++ x2) y.
  Proof.
    intros G1 G2 cp k Hk. rewrite rev_app_distr, <- !app_assoc in *. cbn [Regex.m].
    destruct (G1 cp (fun st => m r2 st k)) as (cp1 & E1).
    - intros cp'. destruct (G2 cp' k Hk) as (cp2 & E2). rewrite E2. apply Hk.
    - destruct (G2 cp1 k Hk) as (cp2 & E2). exists cp2. rewrite E1. exact E2.
  Qed.
  Lemma gm_grp n r b x y : gm r b x y -> gm (Grp n r) b x y.
  Proof. intros G cp k Hk. cbn [Regex.m]. destruct (G cp (fun st' => k {| bef := bef st'; aft := aft st'; caps := (n, consumed {| bef := b; aft := x ++ y; caps := cp |} st') :: caps st' |})) as (cp' & E); [intros cp'; apply Hk|]. eexists. exact E. Qed.
  Lemma gm_alt1 r1 r2 b x y : gm r1 b x y -> gm (Alt r1 r2) b x y.
  Proof. intros G cp k Hk. cbn [Regex.m]. destruct (G cp k Hk) as (cp' & E). exists cp'. rewrite E. specialize (Hk cp'). destruct (k _); [reflexivity|congruence]. Qed.
  Lemma gm_alt2 r1 r2 b x y : (forall cp k, m r1 {| bef := b; aft := x ++ y; caps := cp |} k = None) -> gm r2 b x y -> gm (Alt r1 r2) b x y.
  Proof. intros N G cp k Hk. cbn [Regex.m]. rewrite N. exact (G cp k Hk). Qed.
  Lemma gm_chr cs c b y : cset_match U ic cs c = true -> gm (Chr cs) b [c] y.
  Proof. intros H cp k Hk. cbn [Regex.m app aft]. rewrite H. exists cp. reflexivity. Qed.
  Lemma gm_eps b y : gm Eps b [] y.
  Proof. intros cp k Hk. exists cp. reflexivity. Qed.
  Lemma gm_word s x : Forall2 (fun c d => cset_match U ic (cc c) d = true) s x -> forall b y, gm (word s) b x y.
  Proof.
    induction 1 as [|c d s x Hc H IH]; intros b y; [apply gm_eps|]. destruct s as [|c2 s].
    - inversion H; subst. apply gm_chr. exact Hc.
    - change (word (c :: c2 :: s)) with (Seq (ch c) (word (c2 :: s))). apply (gm_seq _ _ b [d] x y); [apply gm_chr; exact Hc|apply IH].
  Qed.
  Lemma gm_star r y : (forall b cp k, m r {| bef := b; aft := y; caps := cp |} k = None) -> forall xs,
    (forall x1 x x2, xs = x1 ++ x :: x2 -> x <> [] /\ forall b, gm r b x (concat x2 ++ y)) -> forall b, gm (Star true r) b (concat xs) y.
  Proof.
    intros N xs HX b cp k Hk. rewrite m_star. cbn [aft].
    assert (G : forall f xs b cp, (forall x1 x x2, xs = x1 ++ x :: x2 -> x <> [] /\ forall b, gm r b x (concat x2 ++ y)) -> (forall cp', k {| bef := rev (concat xs) ++ b; aft := y; caps := cp' |} <> None) -> length (concat xs ++ y) <= f -> exists cp', loop U ic r true k f {| bef := b; aft := concat xs ++ y; caps := cp |} = k {| bef := rev (concat xs) ++ b; aft := y; caps := cp' |}).
    { clear - N. induction f as [|f IH]; intros xs b cp HX Hk Hl.
      - destruct xs as [|x xs]; [exists cp; reflexivity|]. exfalso. destruct (HX [] x xs eq_refl) as [Hx _]. cbn [concat] in Hl. rewrite !app_length in Hl. destruct x; [congruence|]. cbn [length] in Hl. lia.
      - destruct xs as [|x xs].
        + exists cp. cbn [concat app rev loop]. rewrite N. reflexivity.
        + destruct (HX [] x xs eq_refl) as [Hx G]. cbn [concat] in *. rewrite rev_app_distr, <- !app_assoc in *. cbn [loop aft].
          set (kk := fun st' : mst => if length (aft st') <? length (x ++ concat xs ++ y) then loop U ic r true k f st' else None).
          assert (L : length (concat xs ++ y) < length (x ++ concat xs ++ y)) by (rewrite (app_length x); destruct x; [congruence|]; cbn [length]; lia).
          assert (HX' : forall x1 x0 x2, xs = x1 ++ x0 :: x2 -> x0 <> [] /\ forall b, gm r b x0 (concat x2 ++ y)) by (intros x1 x0 x2 ->; apply (HX (x :: x1) x0 x2 eq_refl)).
          assert (KK : forall cp', exists cp2, kk {| bef := rev x ++ b; aft := concat xs ++ y; caps := cp' |} = k {| bef := rev (concat xs) ++ rev x ++ b; aft := y; caps := cp2 |}).
          { intros cp'. unfold kk. cbn [aft]. destruct (Nat.ltb_spec (length (concat xs ++ y)) (length (x ++ concat xs ++ y))) as [_|F]; [|lia]. apply (IH xs (rev x ++ b) cp' HX'); [exact Hk|lia]. }
          destruct (G b cp kk) as (cp1 & E1).
          * intros cp'. destruct (KK cp') as (cp2 & E2). rewrite E2. apply Hk.
          * destruct (KK cp1) as (cp2 & E2). exists cp2. fold kk. rewrite E1, E2. specialize (Hk cp2). destruct (k _); [reflexivity|congruence]. }
    apply (G _ xs b cp HX Hk). lia.
  Qed.
  Lemma gm_plus_chr cs x y : x <> [] -> Forall (fun c => cset_match U ic cs c = true) x -> (forall c r, y = c :: r -> cset_match U ic cs c = false) -> forall b, gm (plus (Chr cs)) b x y.
  Proof.
    intros Hn Hx Hy b. destruct x as [|c x]; [congruence|]. inversion Hx as [|? ? Hc Hx']; subst. apply (gm_seq _ _ b [c] x y); [apply gm_chr; exact Hc|].
    assert (E : x = concat (map (fun d => [d]) x)) by (clear; induction x as [|d x IH]; [reflexivity|]; cbn [map concat app]; f_equal; exact IH). rewrite E at 1. apply gm_star.
    - intros b0 cp k. cbn [Regex.m aft]. destruct y as [|d y]; [reflexivity|]. rewrite (Hy d y eq_refl). reflexivity.
    - intros x1 d x2 E2. assert (Hd : In d (map (fun d => [d]) x)) by (rewrite E2; apply in_or_app; right; left; reflexivity). apply in_map_iff in Hd. destruct Hd as (d0 & <- & Hd). rewrite Forall_forall in Hx'. split; [discriminate|]. intros b0. apply gm_chr. apply Hx'. exact Hd.
  Qed.
  Lemma gm_match r b x y : gm r b x y -> exists cp, match_at U ic r b (x ++ y) = Some {| bef := rev x ++ b; aft := y; caps := cp |}.
  Proof. intros G. unfold match_at. destruct (G [] Some) as (cp & E); [discriminate|]. exists cp. exact E. Qed.
  (** the search goes past places without a match *)
  Lemma search_skip r x y : forall b, (forall x1 x2, x = x1 ++ x2 -> x2 <> [] -> match_at U ic r (rev x1 ++ b) (x2 ++ y) = None) -> search_from U ic r b (x ++ y) = search_from U ic r (rev x ++ b) y.
  Proof.
    induction x as [|c x IH]; intros b H; [reflexivity|]. pose proof (H [] (c :: x) eq_refl ltac:(discriminate)) as H0. cbn [rev app] in H0. cbn [app rev search_from]. rewrite H0, <- app_assoc. cbn [app]. apply IH. intros x1 x2 -> Hx. specialize (H (c :: x1) x2 eq_refl Hx). cbn [rev] in H. rewrite <- app_assoc in H. exact H.
  Qed.
  Lemma search_here r b y st : match_at U ic r b y = Some st -> search_from U ic r b y = Some (b, st).
  Proof. intros H. destruct y as [|c y]; cbn [search_from]; rewrite H; reflexivity. Qed.
End Greedy.
