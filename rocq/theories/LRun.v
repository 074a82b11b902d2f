(** re.sub as a function of the position, and rules that act word by word. *)
From Coq Require Import Ascii String.
From Coq Require Import List NArith ZArith Arith Bool Lia.
From Verif Require Import PyBase Regex LBase LRegex LSub LTokWords.
Import ListNotations.
Local Open Scope nat_scope.

Section Run.
  Context (U : udb) (ic : bool) (r : re) (t : template) (HN : nullable r = false).
  Notation match_at := (match_at U ic r).
  Definition out (x : list (str * (str * mst)) * str) : str := subst_of t (fst x) (snd x).
  (** the result of re.sub on [a], which comes after the (reversed) text [b] *)
  Definition sr (b a : str) : str := out (pieces_fuel U ic (S (length a)) r b a []).
  Lemma sub_sr s : sub U ic r t s = sr [] s.
  Proof. unfold sub, sr, pieces, out, subst_of. destruct (pieces_fuel U ic (S (length s)) r [] s []) as [ps tl]. reflexivity. Qed.
  Lemma at_lt b a st : match_at b a = Some st -> length (aft st) < length a.
  Proof.
    intros E. destruct (mrel_lang _ _ _ _ _ (match_at_some _ _ _ _ _ _ E)) as (w & A & _ & L). cbn [aft] in A. rewrite A, app_length. destruct w; [exfalso; exact (nullable_lang _ _ r HN L)|cbn; lia].
  Qed.
  Lemma pieces_cur f b a cur : length a < f -> out (pieces_fuel U ic f r b a cur) = rev cur ++ out (pieces_fuel U ic f r b a []).
  Proof.
    revert b a cur. induction f as [|f IH]; intros b a cur H; [lia|]. cbn [pieces_fuel]. destruct (match_at b a) as [st|] eqn:E.
    - pose proof (at_lt _ _ _ E) as HL. replace (length (aft st) <? length a) with true by (symmetry; apply Nat.ltb_lt; exact HL).
      destruct (pieces_fuel U ic f r (bef st) (aft st) []) as [ps tl]. unfold out, subst_of. cbn [fst snd flat_map rev app]. rewrite <- !app_assoc. reflexivity.
    - destruct a as [|c a]; [unfold out, subst_of; cbn; rewrite app_nil_r; reflexivity|]. cbn [length] in *. rewrite (IH _ _ (c :: cur)), (IH _ _ [c]) by lia. cbn [rev app]. rewrite <- app_assoc. reflexivity.
  Qed.
  Lemma pieces_fuel_eq f f' b a : length a < f -> length a < f' -> out (pieces_fuel U ic f r b a []) = out (pieces_fuel U ic f' r b a []).
  Proof.
    revert f' b a. induction f as [|f IH]; intros f' b a H H'; [lia|]. destruct f' as [|f']; [lia|]. cbn [pieces_fuel]. destruct (match_at b a) as [st|] eqn:E.
    - pose proof (at_lt _ _ _ E) as HL. replace (length (aft st) <? length a) with true by (symmetry; apply Nat.ltb_lt; exact HL).
      specialize (IH f' (bef st) (aft st) ltac:(lia) ltac:(lia)). destruct (pieces_fuel U ic f r (bef st) (aft st) []) as [ps tl], (pieces_fuel U ic f' r (bef st) (aft st) []) as [ps' tl'].
      unfold out, subst_of in *. cbn [fst snd flat_map rev app] in *. rewrite <- !app_assoc. f_equal. exact IH.
    - destruct a as [|c a]; [reflexivity|]. cbn [length] in *. rewrite !(pieces_cur _ _ _ [c]) by lia. f_equal. apply IH; lia.
  Qed.
  Lemma sr_nil b : sr b [] = [].
  Proof.
    unfold sr. cbn [length pieces_fuel]. destruct (match_at b []) as [st|] eqn:E; [|reflexivity]. apply at_lt in E. cbn in E. lia.
  Qed.
  Lemma sr_match b a st : match_at b a = Some st -> sr b a = expand t (matched b st) st ++ sr (bef st) (aft st).
  Proof.
    intros E. unfold sr at 1. cbn [pieces_fuel]. rewrite E. pose proof (at_lt _ _ _ E) as HL. replace (length (aft st) <? length a) with true by (symmetry; apply Nat.ltb_lt; exact HL).
    unfold sr. rewrite (pieces_fuel_eq (S (length (aft st))) (length a)) by lia. destruct (pieces_fuel U ic (length a) r (bef st) (aft st) []) as [ps tl]. unfold out, subst_of. cbn [fst snd flat_map rev app]. rewrite <- !app_assoc. reflexivity.
  Qed.
  Lemma sr_skip b c a : match_at b (c :: a) = None -> sr b (c :: a) = c :: sr (c :: b) a.
  Proof. intros E. unfold sr at 1. cbn [length]. remember (S (length a)) as n eqn:En. cbn [pieces_fuel]. rewrite E. subst n. rewrite pieces_cur by lia. reflexivity. Qed.
  Lemma sr_skips pre : forall b a, (forall x z, pre = x ++ z -> z <> [] -> match_at (rev x ++ b) (z ++ a) = None) -> sr b (pre ++ a) = pre ++ sr (rev pre ++ b) a.
  Proof.
    induction pre as [|c pre IH]; intros b a H; [reflexivity|]. cbn [app]. rewrite sr_skip; [|exact (H [] (c :: pre) eq_refl ltac:(discriminate))]. f_equal. cbn [rev]. rewrite <- app_assoc. cbn [app].
    apply IH. intros x z E Hz. specialize (H (c :: x) z ltac:(rewrite E; reflexivity) Hz). cbn [rev] in H. rewrite <- app_assoc in H. exact H.
  Qed.

  (** *** word by word *)
  Notation words := (split_ws (u_space U)).
  Definition sfirst (a : str) : Prop := forall c a', a = c :: a' -> u_space U c = true.
  Lemma words_cut c a : u_space U c = false -> exists w rest, c :: a = w ++ rest /\ w <> [] /\ Forall (fun c => u_space U c = false) w /\ sfirst rest.
  Proof.
    intros Hc. destruct (span_spaces (fun c => negb (u_space U c)) (c :: a)) as (w & rest & E & Hw' & Hr). exists w, rest. split; [exact E|]. destruct w as [|d w].
    - exfalso. cbn in E. specialize (Hr c a (eq_sym E)). cbn in Hr. rewrite Hc in Hr. discriminate.
    - split; [discriminate|]. split; [apply Forall_forall; intros x Hx; specialize (Hw' x Hx); apply negb_true_iff in Hw'; exact Hw'|]. intros x rest' Er. specialize (Hr x rest' Er). apply negb_false_iff in Hr. exact Hr.
  Qed.
  (** the words are given by the values [g x]; [Q]: what every word starts with *)
  Context {T : Type} (g : T -> str) (F : T -> list T) (ok : T -> Prop) (Q : char -> Prop).
  Context (HQ : forall x c w, ok x -> g x = c :: w -> Q c) (HQs : forall c, u_space U c = true -> Q c).
  Context (Hsp : forall b c a, u_space U c = true -> (forall d a', a = d :: a' -> Q d) -> match_at b (c :: a) = None).
  Context (Hw : forall b x rest, ok x -> sfirst b -> sfirst rest -> exists fx, sr b (g x ++ rest) = fx ++ sr (rev (g x) ++ b) rest /\ words fx = map g (F x)).
  Lemma words_head c a : u_space U c = false -> exists w rest, c :: a = w ++ rest /\ words (c :: a) = w :: words rest /\ length rest <= length a /\ sfirst rest.
  Proof.
    intros Hc. destruct (words_cut c a Hc) as (w & rest & E & Hn & Hw0 & Hr). exists w, rest. split; [exact E|]. split; [|split; [|exact Hr]].
    - transitivity (words (w ++ rest)); [f_equal; exact E|]. rewrite (words_app_r U w rest Hr). rewrite split_ws_word by assumption. reflexivity.
    - apply (f_equal (@length char)) in E. rewrite app_length in E. cbn [length] in E. destruct w; [congruence|]. cbn [length] in E. unfold str, char in *. lia.
  Qed.
  Lemma sr_words_at : forall n b a xs, length a <= n -> (sfirst b \/ sfirst a) -> words a = map g xs -> Forall ok xs ->
    words (sr b a) = map g (flat_map F xs) /\ (sfirst a -> sfirst (sr b a)).
  Proof.
    induction n as [|n IH]; intros b a xs Hn Hba HX HO.
    - destruct a; [|cbn in Hn; lia]. destruct xs; [|discriminate]. rewrite sr_nil. split; [reflexivity|auto].
    - destruct a as [|c a]; [destruct xs; [|discriminate]; rewrite sr_nil; split; [reflexivity|auto]|]. cbn [length] in Hn. destruct (u_space U c) eqn:Ec.
      + rewrite split_ws_cons_space in HX by exact Ec. assert (N : match_at b (c :: a) = None).
        { apply Hsp; [exact Ec|]. intros d a' ->. destruct (u_space U d) eqn:Ed; [apply HQs; exact Ed|].
          destruct (words_head d a' Ed) as (w & rest & E & W & _). rewrite W in HX. destruct xs as [|x xs]; [discriminate|]. cbn [map] in HX. injection HX as Hx _. inversion HO; subst.
          destruct (g x) as [|e v] eqn:Eg; [pose proof (split_ws_words (u_space U) (d :: a')) as FW; rewrite W in FW; inversion FW; tauto|]. injection E as -> _. eapply HQ; eassumption. }
        rewrite (sr_skip _ _ _ N). assert (Hcb : sfirst (c :: b)) by (intros d b' E; injection E as <- _; exact Ec).
        destruct (IH (c :: b) a xs ltac:(lia) (or_introl Hcb) HX HO) as [I1 I2].
        rewrite split_ws_cons_space by exact Ec. split; [exact I1|]. intros _ d s' E. injection E as <- _. exact Ec.
      + destruct (words_head c a Ec) as (w & rest & E & W & L & Hr). pose proof (eq_trans (eq_sym W) HX) as HX0. clear HX. rename HX0 into HX. destruct xs as [|x xs]; [discriminate|]. cbn [map] in HX. injection HX as Hx HX. inversion HO as [|? ? O1 O2]; subst.
        assert (Hb : sfirst b). { destruct Hba as [Hb|Hb]; [exact Hb|]. specialize (Hb c a eq_refl). congruence. }
        assert (HS : ~ sfirst (c :: a)) by (intros HS; specialize (HS c a eq_refl); congruence).
        destruct (Hw b x rest O1 Hb Hr) as (fx & R0 & HF). assert (R : sr b (c :: a) = fx ++ sr (rev (g x) ++ b) rest) by (transitivity (sr b (g x ++ rest)); [f_equal; exact E|exact R0]). rewrite R.
        assert (Hl : length rest <= n) by (unfold str, char in *; lia). destruct (IH (rev (g x) ++ b) rest xs Hl (or_intror Hr) HX O2) as [I1 I2]. rewrite (words_app_r U fx) by (apply I2; exact Hr). rewrite I1, HF. cbn [flat_map]. rewrite map_app. split; [reflexivity|].
        intros HS2. contradiction.
  Qed.
  Theorem sub_words_any a xs : words a = map g xs -> Forall ok xs -> words (sub U ic r t a) = map g (flat_map F xs).
  Proof. intros H HO. rewrite sub_sr. apply (sr_words_at (length a) [] a xs); [reflexivity| |exact H|exact HO]. left. intros c b' E. discriminate. Qed.
End Run.
Theorem sub_words U ic r t (HN : nullable r = false) {T : Type} (g f : T -> str) (F : T -> list T) (ok : T -> Prop) (Q : char -> Prop) :
  (forall x c w, ok x -> g x = c :: w -> Q c) -> (forall c, u_space U c = true -> Q c) -> (forall b c a, u_space U c = true -> (forall d a', a = d :: a' -> Q d) -> match_at U ic r b (c :: a) = None) ->
  (forall b x rest, ok x -> sfirst U b -> sfirst U rest -> sr U ic r t b (g x ++ rest) = f x ++ sr U ic r t (rev (g x) ++ b) rest) -> (forall x, ok x -> split_ws (u_space U) (f x) = map g (F x)) ->
  forall a xs, split_ws (u_space U) a = map g xs -> Forall ok xs -> split_ws (u_space U) (sub U ic r t a) = map g (flat_map F xs).
Proof.
  intros H1 H2 H3 Hw HF. apply (sub_words_any U ic r t HN g F ok Q H1 H2 H3). intros b x rest Hx Hb Hr. exists (f x). split; [apply Hw; assumption|apply HF; exact Hx].
Qed.

(** *** word by word, with a look at the next word *)
Section Next.
  Context (U : udb) (ic : bool) (r : re) (t : template) (HN : nullable r = false).
  Context {T : Type} (g : T -> str) (f : T -> list T -> T) (ok : T -> list T -> Prop).
  Definition tail_of (xs : list T) : str := match xs with [] => [] | x :: _ => 32%N :: join [32%N] (map g xs) end.
  Fixpoint mapn (xs : list T) : list T := match xs with [] => [] | x :: rest => f x rest :: mapn rest end.
  Inductive okn : list T -> Prop := okn_nil : okn [] | okn_cons x xs : ok x xs -> okn xs -> okn (x :: xs).
  Context (Hs : forall b x xs, ok x xs -> match_at U ic r b (32%N :: join [32%N] (map g (x :: xs))) = None).
  Context (Hw : forall b x xs, ok x xs -> okn xs -> (forall c b', b = c :: b' -> c = 32%N) -> sr U ic r t b (g x ++ tail_of xs) = g (f x xs) ++ sr U ic r t (rev (g x) ++ b) (tail_of xs)).
  Lemma join_tail x xs : join [32%N] (map g (x :: xs)) = g x ++ tail_of xs.
  Proof. destruct xs; cbn; [rewrite app_nil_r; reflexivity|reflexivity]. Qed.
  Theorem sub_next xs : okn xs -> sub U ic r t (join [32%N] (map g xs)) = join [32%N] (map g (mapn xs)).
  Proof.
    rewrite sub_sr. intros H. assert (G : forall b, (forall c b', b = c :: b' -> c = 32%N) -> sr U ic r t b (join [32%N] (map g xs)) = join [32%N] (map g (mapn xs))); [|apply G; discriminate].
    induction H as [|x xs Hx Ho IH]; intros b Hb; [apply sr_nil; exact HN|]. cbn [mapn]. rewrite join_tail. rewrite Hw by assumption. destruct xs as [|y xs].
    - cbn [tail_of mapn map join]. rewrite sr_nil by exact HN. apply app_nil_r.
    - unfold tail_of. inversion Ho; subst. rewrite sr_skip; [|exact HN|apply Hs; assumption]. rewrite IH by (intros c b' E; injection E as <- _; reflexivity). cbn [map mapn join app]. reflexivity.
  Qed.
End Next.

(** *** the characters a match can start with *)
Fixpoint firstb (U : udb) (ic : bool) (r : re) (c : char) : bool :=
  match r with
  | Chr cs => cset_match U ic cs c
  | Seq a b => firstb U ic a c || (nullable a && firstb U ic b c)
  | Alt a b => firstb U ic a c || firstb U ic b c
  | Star _ a | Grp _ a => firstb U ic a c
  | _ => false
  end.
Lemma first_lang U ic r : forall c x, lang U ic r (c :: x) -> firstb U ic r c = true.
Proof.
  induction r as [|cs|r1 IH1 r2 IH2|r1 IH1 r2 IH2|g0 r IH|n r IH|pos r IH|pos l|pos| |]; cbn [lang firstb]; intros c x H; try discriminate.
  - destruct H as (d & E & H). injection E as -> ->. exact H.
  - destruct H as (y & z & E & H1 & H2). destruct y as [|d y].
    + cbn in E. subst z. apply orb_true_iff. right. rewrite (IH2 c x H2), andb_true_r. destruct (nullable r1) eqn:E; [reflexivity|]. exfalso. exact (nullable_lang _ _ _ E H1).
    + injection E as -> ->. rewrite (IH1 _ _ H1). reflexivity.
  - apply orb_true_iff. destruct H as [H|H]; eauto.
  - destruct H as (l & E & H). revert E. induction H as [|y l Hy Hl IHl]; cbn [concat]; [discriminate|]. destruct y as [|d y]; [exact IHl|]. intros E. injection E as -> _. eapply IH. exact Hy.
  - eapply IH. exact H.
Qed.
Lemma first_none U ic r b c a : nullable r = false -> firstb U ic r c = false -> match_at U ic r b (c :: a) = None.
Proof.
  intros HN HF. destruct (match_at U ic r b (c :: a)) as [st|] eqn:E; [|reflexivity]. destruct (mrel_lang _ _ _ _ _ (match_at_some _ _ _ _ _ _ E)) as (w & A & _ & L). cbn [aft] in A.
  destruct w as [|d w]; [exfalso; exact (nullable_lang _ _ r HN L)|]. injection A as <- _. apply first_lang in L. congruence.
Qed.
