(** Proofs about utils/mutables.py and utils/multithreading.py. *)
From Coq Require Import Ascii String.
From Coq Require Import List NArith ZArith Arith Bool Lia.
From Verif Require Import PyBase Regex MUtils LBase LLinspace.
Import ListNotations.
Local Open Scope nat_scope.

(** ** divide_list *)
Definition cut {A} (items : list A) (ab : nat * nat) : list A := firstn (snd ab - fst ab) (skipn (fst ab) items).
Definition marks (L n : nat) : list nat :=
  map (fun i => Z.to_nat (mark (Z.of_nat L) (Z.of_nat n) (Z.of_nat i))) (seq 0 n) ++ [L].

Lemma adjacent_map {A B} (f : A -> B) l : adjacent (map f l) = map (fun '(a, b) => (f a, f b)) (adjacent l).
Proof.
  induction l as [|a l IH]; [reflexivity|]. destruct l as [|b l]; [reflexivity|].
  cbn [map adjacent] in *. f_equal. exact IH.
Qed.
Lemma adjacent_length {A} (l : list A) : length (adjacent l) = length l - 1.
Proof.
  induction l as [|a l IH]; [reflexivity|]. destruct l as [|b l]; [reflexivity|].
  change (adjacent (a :: b :: l)) with ((a, b) :: adjacent (b :: l)). cbn [length] in *. rewrite IH. lia.
Qed.
Lemma adjacent_nth {A} (l : list A) i :
  nth_error (adjacent l) i =
  match nth_error l i, nth_error l (S i) with Some a, Some b => Some (a, b) | _, _ => None end.
Proof.
  revert i; induction l as [|a l IH]; intros i; [destruct i; reflexivity|].
  destruct l as [|b l].
  - destruct i; simpl; [reflexivity|]. destruct i; reflexivity.
  - change (adjacent (a :: b :: l)) with ((a, b) :: adjacent (b :: l)). destruct i as [|i]; [reflexivity|].
    cbn [nth_error]. rewrite IH. reflexivity.
Qed.

Lemma skipn_skipn_add {A} a b (l : list A) : skipn b (skipn a l) = skipn (a + b) l.
Proof. revert l; induction a as [|a IH]; intros l; [reflexivity|]. destruct l; [rewrite !skipn_nil; reflexivity|]. simpl. apply IH. Qed.
Lemma skipn_firstn_add {A} a b (l : list A) : firstn b (skipn a l) ++ skipn (a + b) l = skipn a l.
Proof. rewrite <- skipn_skipn_add. apply firstn_skipn. Qed.

Fixpoint mono (l : list nat) : Prop :=
  match l with a :: ((b :: _) as l') => a <= b /\ mono l' | _ => True end.

Lemma concat_cuts {A} (items : list A) (ms : list nat) a :
  mono (a :: ms) -> concat (map (cut items) (adjacent (a :: ms))) ++ skipn (last (a :: ms) 0) items = skipn a items.
Proof.
  revert a; induction ms as [|b ms IH]; intros a Hm; [reflexivity|].
  destruct Hm as [Hab Hm]. specialize (IH b Hm).
  change (adjacent (a :: b :: ms)) with ((a, b) :: adjacent (b :: ms)).
  change (last (a :: b :: ms) 0) with (last (b :: ms) 0). cbn [map concat].
  rewrite <- app_assoc, IH. unfold cut. cbn [fst snd].
  pose proof (skipn_firstn_add a (b - a) items) as P. replace (a + (b - a)) with b in P by lia. exact P.
Qed.

Lemma mono_nth l : (forall i x y, nth_error l i = Some x -> nth_error l (S i) = Some y -> x <= y) -> mono l.
Proof.
  induction l as [|a l IH]; intros H; [exact I|]. destruct l as [|b l]; [exact I|]. split.
  - apply (H 0); reflexivity.
  - apply IH. intros i x y Hx Hy. apply (H (S i)); assumption.
Qed.

Section Divide.
  Context {A : Type} (items : list A) (n : nat).
  Let L := length items.
  Hypothesis Hn : 1 <= n.
  Hypothesis HnL : n <= L.
  Hypothesis HL : (Z.of_nat L <= 2 ^ 53)%Z.

  Lemma of_Z_int z : (0 <= z <= 2 ^ 53)%Z -> b64_int (b64_of_Z z) = z.
  Proof.
    intros H. destruct (of_Z_correct z) as (E & _); [lia|]. unfold b64_int.
    apply RIneq.eq_IZR.
    rewrite (Flocq.IEEE754.BinarySingleNaN.Btrunc_correct 53 1024 p53_lt_emax). rewrite E.
    rewrite Flocq.Core.FIX.round_FIX_IZR. f_equal. apply Flocq.Core.Raux.Ztrunc_IZR.
  Qed.

  Lemma nth_marks i : nth_error (marks L n) i =
    if i <? n then Some (Z.to_nat (mark (Z.of_nat L) (Z.of_nat n) (Z.of_nat i)))
    else if i =? n then Some L else None.
  Proof.
    unfold marks. destruct (Nat.ltb_spec i n) as [H|H].
    - rewrite nth_error_app1 by (rewrite map_length, seq_length; exact H).
      rewrite nth_error_map. rewrite (nth_error_nth' _ 0) by (rewrite seq_length; exact H).
      rewrite seq_nth by exact H. reflexivity.
    - rewrite nth_error_app2 by (rewrite map_length, seq_length; exact H).
      rewrite map_length, seq_length. destruct (Nat.eqb_spec i n) as [->|E].
      + rewrite Nat.sub_diag. reflexivity.
      + replace (i - n) with (S (i - n - 1)) by lia. simpl. destruct (i - n - 1); reflexivity.
  Qed.

  Lemma divide_list_cuts : divide_list items (Z.of_nat n) = Ok (map (cut items) (adjacent (marks L n))).
  Proof.
    unfold divide_list. fold L.
    replace ((Z.of_nat n <=? 0)%Z) with false by (symmetry; apply Z.leb_gt; lia).
    replace ((Z.of_nat n <=? Z.of_nat L)%Z) with true by (symmetry; apply Z.leb_le; lia).
    f_equal.
    transitivity (map (cut items) (map (fun '(a, b) => (Z.to_nat (b64_int a), Z.to_nat (b64_int b))) (adjacent (linspace (Z.of_nat L) (Z.of_nat n))))).
    - rewrite map_map. apply map_ext_in. intros [a b] Hab.
      assert (Hpos : forall x, In x (linspace (Z.of_nat L) (Z.of_nat n)) -> (0 <= b64_int x)%Z).
      { intros x Hx. unfold linspace in Hx. apply in_app_iff in Hx. destruct Hx as [Hx|[<-|[]]].
        - apply in_map_iff in Hx. destruct Hx as (i & <- & Hi). apply in_seq in Hi.
          apply (mark_bounds (Z.of_nat L) (Z.of_nat n)); lia.
        - rewrite of_Z_int; lia. }
      assert (Hin : In a (linspace (Z.of_nat L) (Z.of_nat n)) /\ In b (linspace (Z.of_nat L) (Z.of_nat n))).
      { apply In_nth_error in Hab. destruct Hab as [k Hk]. rewrite adjacent_nth in Hk.
        destruct (nth_error (linspace (Z.of_nat L) (Z.of_nat n)) k) eqn:E1; [|discriminate].
        destruct (nth_error (linspace (Z.of_nat L) (Z.of_nat n)) (S k)) eqn:E2; [|discriminate].
        injection Hk as <- <-. split; eapply nth_error_In; eauto. }
      destruct Hin as [Ha Hb]. apply Hpos in Ha, Hb. unfold cut. cbn [fst snd].
      rewrite <- (Z2Nat.id (b64_int a)) at 1 by exact Ha. rewrite <- (Z2Nat.id (b64_int b)) at 1 by exact Hb.
      apply slice_nat.
    - f_equal. rewrite <- (adjacent_map (fun x => Z.to_nat (b64_int x))). f_equal.
      unfold linspace, marks. rewrite map_app, map_map. cbn [map]. rewrite Nat2Z.id. f_equal.
      rewrite of_Z_int by lia. rewrite Nat2Z.id. reflexivity.
  Qed.

  Lemma marks_mono : mono (marks L n).
  Proof.
    apply mono_nth. intros i x y. rewrite !nth_marks.
    destruct (Nat.ltb_spec i n) as [H|H].
    - intros E; injection E as <-. destruct (Nat.ltb_spec (S i) n) as [H2|H2].
      + intros E; injection E as <-. apply Z2Nat.inj_le.
        * apply (mark_bounds (Z.of_nat L) (Z.of_nat n)); lia.
        * apply (mark_bounds (Z.of_nat L) (Z.of_nat n)); lia.
        * apply mark_mono; lia.
      + destruct (Nat.eqb_spec (S i) n) as [H3|H3]; [|discriminate]. intros E; injection E as <-.
        pose proof (mark_bounds (Z.of_nat L) (Z.of_nat n) ltac:(lia) ltac:(lia) ltac:(lia) (Z.of_nat i) ltac:(lia)). lia.
    - destruct (Nat.eqb_spec i n) as [->|H3]; [|discriminate]. intros E; injection E as <-.
      destruct (Nat.ltb_spec (S n) n); [lia|]. destruct (Nat.eqb_spec (S n) n); [lia|discriminate].
  Qed.

  Lemma divide_list_spec : exists ls, divide_list items (Z.of_nat n) = Ok ls /\ concat ls = items /\ length ls = n.
  Proof.
    exists (map (cut items) (adjacent (marks L n))). split; [apply divide_list_cuts|]. split.
    - pose proof (nth_marks 0) as H0.
      destruct (marks L n) as [|a ms] eqn:E; [unfold marks in E; destruct (map _ _); discriminate|].
      assert (a = 0) as ->.
      { cbn [nth_error] in H0. replace (0 <? n) with true in H0 by (symmetry; apply Nat.ltb_lt; lia).
        injection H0 as H0. rewrite mark_0 in H0 by lia. exact H0. }
      pose proof (concat_cuts items ms 0 ltac:(rewrite <- E; apply marks_mono)) as C.
      assert (Hl : last (0 :: ms) 0 = L) by (rewrite <- E; unfold marks; apply last_last).
      rewrite Hl in C. unfold L in C; rewrite skipn_all in C. rewrite app_nil_r in C. exact C.
    - rewrite map_length, adjacent_length. unfold marks. rewrite app_length, map_length, seq_length. simpl. lia.
  Qed.

  Lemma divide_list_sizes ls l : (Z.of_nat L * Z.of_nat n <= 2 ^ 50)%Z ->
    divide_list items (Z.of_nat n) = Ok ls -> In l ls -> L / n <= length l <= L / n + 1.
  Proof.
    intros Hsm E Hl. rewrite divide_list_cuts in E. injection E as <-.
    apply in_map_iff in Hl. destruct Hl as ([a b] & <- & Hab). apply In_nth_error in Hab. destruct Hab as [i Hi].
    rewrite adjacent_nth, !nth_marks in Hi.
    assert (Hdiv : Z.of_nat (L / n) = (Z.of_nat L / Z.of_nat n)%Z) by apply Nat2Z.inj_div.
    destruct (Nat.ltb_spec i n) as [H|H].
    - pose proof (mark_bounds (Z.of_nat L) (Z.of_nat n) ltac:(lia) ltac:(lia) ltac:(lia) (Z.of_nat i) ltac:(lia)) as B1.
      destruct (Nat.ltb_spec (S i) n) as [H2|H2].
      + injection Hi as <- <-. unfold cut. cbn [fst snd]. rewrite firstn_length, skipn_length. fold L.
        pose proof (size_balanced (Z.of_nat L) (Z.of_nat n) ltac:(lia) ltac:(lia) ltac:(lia) Hsm (Z.of_nat i) ltac:(lia) ltac:(lia)) as Sz.
        pose proof (mark_bounds (Z.of_nat L) (Z.of_nat n) ltac:(lia) ltac:(lia) ltac:(lia) (Z.of_nat (S i)) ltac:(lia)) as B2.
        replace (Z.of_nat i + 1)%Z with (Z.of_nat (S i)) in Sz by lia.
        set (q := (Z.of_nat L / Z.of_nat n)%Z) in *. set (q' := L / n) in *. clearbody q q'. change (Z.pos (Pos.of_succ_nat i)) with (Z.of_nat (S i)). lia.
      + destruct (Nat.eqb_spec (S i) n) as [H3|H3]; [|discriminate]. injection Hi as <- <-.
        unfold cut. cbn [fst snd]. rewrite firstn_length, skipn_length. fold L.
        pose proof (last_balanced (Z.of_nat L) (Z.of_nat n) ltac:(lia) ltac:(lia) ltac:(lia) Hsm) as S.
        replace (Z.of_nat n - 1)%Z with (Z.of_nat i) in S by lia.
        set (q := (Z.of_nat L / Z.of_nat n)%Z) in *. set (q' := L / n) in *. clearbody q q'. lia.
    - destruct (Nat.eqb_spec i n); [|discriminate]. subst i.
      destruct (Nat.ltb_spec (S n) n); [lia|]. destruct (Nat.eqb_spec (S n) n); [lia|discriminate].
  Qed.
End Divide.

Lemma divide_list_more {A} (items : list A) n : (1 <= n)%Z -> (Z.of_nat (length items) < n)%Z ->
  divide_list items n = Ok (map (fun x => [x]) items).
Proof.
  intros H1 H2. unfold divide_list.
  replace ((n <=? 0)%Z) with false by (symmetry; apply Z.leb_gt; lia).
  replace ((n <=? Z.of_nat (length items))%Z) with false by (symmetry; apply Z.leb_gt; lia). reflexivity.
Qed.
Lemma concat_singletons {A} (l : list A) : concat (map (fun x => [x]) l) = l.
Proof. induction l; simpl; congruence. Qed.

Lemma divide_list_ok {A} (items : list A) n : (1 <= n)%Z -> (Z.of_nat (length items) <= 2 ^ 53)%Z ->
  exists ls, divide_list items n = Ok ls /\ concat ls = items.
Proof.
  intros H1 H2. destruct (Z.le_gt_cases n (Z.of_nat (length items))) as [H|H].
  - destruct (divide_list_spec items (Z.to_nat n) ltac:(lia) ltac:(lia) H2) as (ls & E & C & _).
    rewrite Z2Nat.id in E by lia. eauto.
  - exists (map (fun x => [x]) items). split; [apply divide_list_more; assumption|apply concat_singletons].
Qed.

(** ** make_batches *)
Lemma range_step_ge fuel a stop st i : 1 <= st -> In i (range_step fuel a stop st) -> a <= i < stop.
Proof.
  intros Hs. revert a; induction fuel as [|f IH]; intros a; simpl; [tauto|].
  destruct (Nat.ltb_spec a stop) as [H|H]; [|simpl; tauto]. intros [<-|Hi]; [lia|]. apply IH in Hi. lia.
Qed.
Lemma batches_concat {A} (items : list A) st fuel a : 1 <= st -> length items <= a + fuel ->
  concat (map (fun i => firstn st (skipn i items)) (range_step fuel a (length items) st)) = skipn a items.
Proof.
  intros Hs. revert a; induction fuel as [|f IH]; intros a Hf; simpl.
  - rewrite skipn_all2 by lia. reflexivity.
  - destruct (Nat.ltb_spec a (length items)) as [H|H].
    + simpl. rewrite IH by lia. rewrite skipn_firstn_add. reflexivity.
    + rewrite skipn_all2 by lia. reflexivity.
Qed.
Lemma make_batches_map {A} (items : list A) n : 1 <= n ->
  make_batches items (Z.of_nat n) =
  Ok (map (fun i => firstn n (skipn i items)) (range_step (length items) 0 (length items) n)).
Proof.
  intros Hn. unfold make_batches.
  replace ((Z.of_nat n =? 0)%Z) with false by (symmetry; apply Z.eqb_neq; lia).
  replace ((Z.of_nat n <? 0)%Z) with false by (symmetry; apply Z.ltb_ge; lia).
  f_equal. rewrite Nat2Z.id. apply map_ext. intros i. rewrite <- Nat2Z.inj_add, slice_nat.
  f_equal. lia.
Qed.
(** all batches but the last are full *)
Lemma range_step_full (len st fuel a : nat) i j : 1 <= st ->
  nth_error (range_step fuel a len st) (S i) = Some j -> exists k, nth_error (range_step fuel a len st) i = Some k /\ k + st = j.
Proof.
  intros Hs. revert a i; induction fuel as [|f IH]; intros a i; simpl; [discriminate|].
  destruct (Nat.ltb_spec a len) as [H|H]; [|discriminate]. simpl.
  destruct i as [|i].
  - simpl. destruct f as [|f]; [discriminate|]. simpl. destruct (a + st <? len); [|discriminate]. simpl.
    intros E; injection E as <-. eauto.
  - intros E. apply IH in E. exact E.
Qed.
Lemma make_batches_spec {A} (items : list A) n : 1 <= n ->
  exists bs, make_batches items (Z.of_nat n) = Ok bs /\ concat bs = items /\
    (forall b, In b bs -> 1 <= length b <= n) /\
    (forall i b, nth_error bs i = Some b -> S i < length bs -> length b = n).
Proof.
  intros Hn. eexists. split; [apply make_batches_map; exact Hn|]. split; [|split].
  - rewrite batches_concat by lia. reflexivity.
  - intros b Hb. apply in_map_iff in Hb. destruct Hb as (i & <- & Hi). apply range_step_ge in Hi; [|exact Hn].
    rewrite firstn_length, skipn_length. lia.
  - intros i b Hb Hlt. rewrite map_length in Hlt. apply nth_error_map_Some in Hb. destruct Hb as (k & Hk & ->).
    destruct (nth_error (range_step (length items) 0 (length items) n) (S i)) eqn:E.
    + pose proof (nth_error_In _ _ E) as Hin. apply range_step_ge in Hin; [|exact Hn].
      apply range_step_full in E; [|exact Hn]. destruct E as (k' & Hk' & Hadd). rewrite Hk in Hk'. injection Hk' as <-.
      rewrite firstn_length, skipn_length. lia.
    + apply nth_error_None in E. lia.
Qed.

(** ** threads *)
Lemma set_nth_same {T} (l : list T) i x : i < length l -> nth_error (set_nth i x l) i = Some x.
Proof.
  intros H. unfold set_nth. rewrite nth_error_app2 by (rewrite firstn_length; lia).
  rewrite firstn_length, Nat.min_l by lia. rewrite Nat.sub_diag. reflexivity.
Qed.
Lemma nth_error_firstn_lt {T} (l : list T) i j : j < i -> nth_error (firstn i l) j = nth_error l j.
Proof.
  revert l j; induction i as [|i IH]; intros l j H; [lia|]. destruct l; [reflexivity|]. destruct j; [reflexivity|].
  simpl. apply IH. lia.
Qed.
Lemma nth_error_skipn_add {T} (l : list T) i j : nth_error (skipn i l) j = nth_error l (i + j).
Proof. revert l; induction i as [|i IH]; intros l; [reflexivity|]. destruct l; [destruct j; reflexivity|]. simpl. apply IH. Qed.
Lemma set_nth_other {T} (l : list T) i j x : i < length l -> i <> j -> nth_error (set_nth i x l) j = nth_error l j.
Proof.
  intros H Hne. unfold set_nth. destruct (Nat.lt_ge_cases j i) as [Hj|Hj].
  - rewrite nth_error_app1 by (rewrite firstn_length; lia). apply nth_error_firstn_lt; exact Hj.
  - rewrite nth_error_app2 by (rewrite firstn_length; lia). rewrite firstn_length, Nat.min_l by lia.
    replace (j - i) with (S (j - i - 1)) by lia. cbn [nth_error]. rewrite nth_error_skipn_add. f_equal. lia.
Qed.
Lemma set_nth_length {T} (l : list T) i x : i < length l -> length (set_nth i x l) = length l.
Proof. intros H. unfold set_nth. rewrite app_length. cbn [length]. rewrite firstn_length, skipn_length. lia. Qed.

Section ThreadProofs.
  Context {A B : Type} (process : A -> res B).

  Definition thr_inv (l : list A) (t : thread (A := A) (B := B)) : Prop :=
    exists done, l = done ++ th_todo t /\ mapM process done = Ok (th_acc t) /\
      match th_status_ t with
      | NotStarted | Running => th_out t = []
      | Dead => th_out t = thread_output process l
      end.

  Definition config_inv (lists : list (list A)) (c : config) : Prop :=
    length (c_threads c) = length lists /\
    (forall i l t, nth_error lists i = Some l -> nth_error (c_threads c) i = Some t -> thr_inv l t) /\
    match c_main c with
    | Starting i => i <= length lists /\
        (forall j t, nth_error (c_threads c) j = Some t -> if j <? i then th_status_ t <> NotStarted else th_status_ t = NotStarted)
    | Joining i out => i <= length lists /\ out = flat_map (thread_output process) (firstn i lists) /\
        (forall j t, nth_error (c_threads c) j = Some t -> th_status_ t <> NotStarted) /\
        (forall j t, j < i -> nth_error (c_threads c) j = Some t -> th_status_ t = Dead)
    | Returned out => out = flat_map (thread_output process) lists /\
        (forall j t, nth_error (c_threads c) j = Some t -> th_status_ t = Dead)
    end.

  Lemma init_inv lists : config_inv lists (init_config (B := B) lists).
  Proof.
    unfold config_inv, init_config. simpl. split; [apply map_length|]. split; [|split; [lia|]].
    - intros i l t Hl Ht. apply nth_error_map_Some in Ht. destruct Ht as (l' & Hl' & ->).
      rewrite Hl in Hl'. injection Hl' as <-. exists []. simpl. auto.
    - intros j t Ht. apply nth_error_map_Some in Ht. destruct Ht as (l' & Hl' & ->). reflexivity.
  Qed.

  Lemma thread_step_inv l t t' : thr_inv l t -> thread_step process t = Some t' -> thr_inv l t' /\ th_status_ t = Running /\ th_status_ t' <> NotStarted.
  Proof.
    intros (done & El & Hacc & Hst) H. unfold thread_step in H.
    destruct (th_status_ t) eqn:Es; try discriminate.
    destruct (th_todo t) as [|x r] eqn:Et.
    - injection H as <-. split; [|split; [reflexivity|discriminate]]. exists done. simpl. split; [exact El|]. split; [exact Hacc|].
      unfold thread_output. rewrite app_nil_r in El. subst. rewrite Hacc. reflexivity.
    - destruct (process x) as [y|e] eqn:Ep; injection H as <-.
      + split; [|split; [reflexivity|discriminate]]. exists (done ++ [x]). simpl. split; [rewrite <- app_assoc; exact El|]. split; [|exact Hst].
        rewrite mapM_app, Hacc. simpl. rewrite Ep. reflexivity.
      + split; [|split; [reflexivity|discriminate]]. exists done. simpl. split; [exact El|]. split; [exact Hacc|].
        unfold thread_output. rewrite El, mapM_app, Hacc. simpl. rewrite Ep. simpl. exact Hst.
  Qed.

  Lemma nth_set_nth {T} (l : list T) i j x y : i < length l -> nth_error (set_nth i x l) j = Some y ->
    (j = i /\ y = x) \/ (j <> i /\ nth_error l j = Some y).
  Proof.
    intros Hi H. destruct (Nat.eq_dec j i) as [->|Hne].
    - rewrite set_nth_same in H by exact Hi. injection H as <-. auto.
    - rewrite set_nth_other in H by (try exact Hi; congruence). auto.
  Qed.

  Lemma step_inv lists c c' : config_inv lists c -> step process c c' -> config_inv lists c'.
  Proof.
    intros (Hlen & Hthr & Hmain) H. destruct H; unfold config_inv; cbn [c_main c_threads] in *.
    - (* start *)
      assert (Hi : i < length ts) by (apply nth_error_Some; congruence).
      destruct Hmain as [Hm1 Hm2]. split; [rewrite set_nth_length by exact Hi; exact Hlen|]. split.
      + intros j l t2 Hl Ht2. apply nth_set_nth in Ht2; [|exact Hi]. destruct Ht2 as [[-> ->]|[Hne Ht2]]; [|eapply Hthr; eauto].
        destruct (Hthr i l t Hl H) as (done & E1 & E2 & E3). exists done. simpl. split; [exact E1|]. split; [exact E2|].
        specialize (Hm2 i t H). rewrite Nat.ltb_irrefl in Hm2. rewrite Hm2 in E3. exact E3.
      + split; [lia|]. intros j t2 Ht2. apply nth_set_nth in Ht2; [|exact Hi].
        destruct Ht2 as [[-> ->]|[Hne Ht2]].
        * replace (i <? S i) with true by (symmetry; apply Nat.ltb_lt; lia). simpl. discriminate.
        * specialize (Hm2 j t2 Ht2). destruct (Nat.ltb_spec j i), (Nat.ltb_spec j (S i)); try assumption; lia.
    - (* all started *)
      destruct Hmain as [Hm1 Hm2]. split; [exact Hlen|]. split; [exact Hthr|].
      split; [lia|]. split; [reflexivity|]. split.
      + intros j t Ht. specialize (Hm2 j t Ht). assert (j < length ts) by (apply nth_error_Some; congruence).
        destruct (Nat.ltb_spec j i); [exact Hm2|lia].
      + intros j t Hj. lia.
    - (* join *)
      assert (Hi : i < length ts) by (apply nth_error_Some; congruence).
      destruct Hmain as (Hm1 & Hm2 & Hm3 & Hm4). split; [exact Hlen|]. split; [exact Hthr|].
      split; [lia|]. split; [|split; [exact Hm3|]].
      + assert (exists l, nth_error lists i = Some l) as [l Hl].
        { destruct (nth_error lists i) eqn:E; [eauto|]. apply nth_error_None in E. lia. }
        destruct (Hthr i l t Hl H) as (done & _ & _ & E3). rewrite H0 in E3. rewrite E3, Hm2.
        assert (firstn (S i) lists = firstn i lists ++ [l]) as ->.
        { clear -Hl. revert i Hl; induction lists as [|a r IH]; intros [|i] Hl; try discriminate.
          - injection Hl as ->. reflexivity.
          - cbn [firstn app]. f_equal. apply IH. exact Hl. }
        rewrite flat_map_app. simpl. rewrite app_nil_r. reflexivity.
      + intros j t2 Hj Ht2. destruct (Nat.eq_dec j i) as [->|Hne]; [congruence|]. apply (Hm4 j); [lia|exact Ht2].
    - (* return *)
      destruct Hmain as (Hm1 & Hm2 & Hm3 & Hm4). split; [exact Hlen|]. split; [exact Hthr|]. split.
      + rewrite Hm2. rewrite firstn_all2 by lia. reflexivity.
      + intros j t Ht. apply (Hm4 j); [|exact Ht]. subst i. apply nth_error_Some. congruence.
    - (* thread *)
      assert (Hi : i < length ts) by (apply nth_error_Some; congruence).
      assert (exists l, nth_error lists i = Some l) as [l Hl].
      { destruct (nth_error lists i) eqn:E; [eauto|]. apply nth_error_None in E. lia. }
      destruct (thread_step_inv l t t' (Hthr i l t Hl H) H0) as (Hinv & Hrun & Hnn).
      split; [rewrite set_nth_length by exact Hi; exact Hlen|]. split.
      + intros j l2 t2 Hl2 Ht2. apply nth_set_nth in Ht2; [|exact Hi]. destruct Ht2 as [[-> ->]|[Hne Ht2]]; [congruence|eapply Hthr; eauto].
      + destruct pc as [k|k out|out].
        * destruct Hmain as [Hm1 Hm2]. split; [exact Hm1|]. intros j t2 Ht2. apply nth_set_nth in Ht2; [|exact Hi].
          destruct Ht2 as [[-> ->]|[Hne Ht2]]; [|apply Hm2; exact Ht2].
          specialize (Hm2 i t H). destruct (i <? k); [exact Hnn|congruence].
        * destruct Hmain as (Hm1 & Hm2 & Hm3 & Hm4). split; [exact Hm1|]. split; [exact Hm2|]. split.
          -- intros j t2 Ht2. apply nth_set_nth in Ht2; [|exact Hi]. destruct Ht2 as [[-> ->]|[Hne Ht2]]; [exact Hnn|eauto].
          -- intros j t2 Hj Ht2. apply nth_set_nth in Ht2; [|exact Hi]. destruct Ht2 as [[-> ->]|[Hne Ht2]]; [|eauto].
             specialize (Hm4 i t Hj H). congruence.
        * destruct Hmain as [Hm1 Hm2]. specialize (Hm2 i t H). congruence.
  Qed.

  Lemma steps_inv lists k c c' : config_inv lists c -> steps process k c c' -> config_inv lists c'.
  Proof. intros Hc H. induction H; [exact Hc|]. apply IHsteps. eapply step_inv; eauto. Qed.

  (** every schedule returns the same value *)
  Lemma returned_value lists k c out :
    steps process k (init_config lists) c -> c_main c = Returned out -> out = flat_map (thread_output process) lists.
  Proof.
    intros Hs Hr. pose proof (steps_inv lists _ _ _ (init_inv lists) Hs) as (_ & _ & Hm).
    rewrite Hr in Hm. apply Hm.
  Qed.

  (** no deadlock *)
  Lemma progress lists c : config_inv lists c -> (exists out, c_main c = Returned out) \/ exists c', step process c c'.
  Proof.
    intros (Hlen & Hthr & Hmain). destruct c as [pc ts]; simpl in *. destruct pc as [i|i out|out]; [| |eauto].
    - right. destruct Hmain as [Hm1 _]. destruct (nth_error ts i) as [t|] eqn:E.
      + eexists. eapply StepStart. exact E.
      + apply nth_error_None in E. eexists. apply StepStarted. lia.
    - right. destruct Hmain as (Hm1 & Hm2 & Hm3 & Hm4). destruct (nth_error ts i) as [t|] eqn:E.
      + destruct (th_status_ t) eqn:Es.
        * exfalso. apply (Hm3 i t E Es).
        * assert (exists t', thread_step process t = Some t') as [t' Ht'].
          { unfold thread_step. rewrite Es. destruct (th_todo t) as [|x r]; [eauto|]. destruct (process x); eauto. }
          eexists. eapply StepThread; eauto.
        * eexists. eapply StepJoin; eauto.
      + apply nth_error_None in E. eexists. apply StepReturn. lia.
  Qed.

  (** every execution is finite: a measure *)
  Definition thr_measure (t : thread (A := A) (B := B)) : nat :=
    match th_status_ t with Dead => 0 | _ => S (length (th_todo t)) end.
  Definition main_measure (n : nat) (pc : main_pc (B := B)) : nat :=
    match pc with Starting i => (n - i) + n + 2 | Joining i _ => n - i + 1 | Returned _ => 0 end.
  Definition measure (c : config) : nat :=
    main_measure (length (c_threads c)) (c_main c) + list_sum (map thr_measure (c_threads c)).

  Lemma sum_set_nth ts i (t t' : thread) : nth_error ts i = Some t ->
    list_sum (map thr_measure (set_nth i t' ts)) + thr_measure t = list_sum (map thr_measure ts) + thr_measure t'.
  Proof.
    revert i; induction ts as [|a ts IH]; intros [|i] H; try discriminate.
    - injection H as ->. unfold set_nth. simpl. unfold list_sum. simpl. lia.
    - simpl in H. specialize (IH i H). unfold set_nth in *. simpl in *. unfold list_sum in *. simpl. lia.
  Qed.

  Lemma step_measure c c' lists : config_inv lists c -> step process c c' -> measure c' < measure c.
  Proof.
    intros (Hlen & Hthr & Hmain) H. unfold measure. destruct H; simpl in *.
    - assert (Hi : i < length ts) by (apply nth_error_Some; congruence).
      rewrite set_nth_length by exact Hi.
      destruct Hmain as [_ Hm2]. specialize (Hm2 i t H). rewrite Nat.ltb_irrefl in Hm2.
      pose proof (sum_set_nth ts i t {| th_status_ := Running; th_todo := th_todo t; th_acc := th_acc t; th_out := th_out t |} H) as S.
      assert (thr_measure t = Datatypes.S (length (th_todo t))) as E by (unfold thr_measure; rewrite Hm2; reflexivity).
      rewrite E in S. change (thr_measure {| th_status_ := Running; th_todo := th_todo t; th_acc := th_acc t; th_out := th_out t |})
        with (Datatypes.S (length (th_todo t))) in S. lia.
    - lia.
    - assert (Hi : i < length ts) by (apply nth_error_Some; congruence). lia.
    - lia.
    - assert (Hi : i < length ts) by (apply nth_error_Some; congruence).
      rewrite set_nth_length by exact Hi. pose proof (sum_set_nth ts i t t' H) as S.
      assert (thr_measure t' < thr_measure t); [|lia].
      unfold thread_step in H0. unfold thr_measure. destruct (th_status_ t); try discriminate.
      destruct (th_todo t) as [|x r]; [injection H0 as <-; simpl; lia|].
      destruct (process x); injection H0 as <-; simpl; lia.
  Qed.

  Lemma steps_bound lists k c c' : config_inv lists c -> steps process k c c' -> k + measure c' <= measure c.
  Proof.
    intros Hc H. induction H; [lia|].
    pose proof (step_measure _ _ _ Hc H). assert (config_inv lists c') by (eapply step_inv; eauto).
    specialize (IHsteps H2). lia.
  Qed.

  Lemma init_measure lists : measure (init_config lists) = 2 * length lists + 2 + list_sum (map (fun l => S (length l)) lists).
  Proof.
    unfold measure, init_config. simpl. rewrite !map_length, map_map. simpl. unfold thr_measure. simpl. lia.
  Qed.

  Lemma exists_run lists c : config_inv lists c -> exists k c' out, steps process k c c' /\ c_main c' = Returned out.
  Proof.
    remember (measure c) as n eqn:En. assert (Hle : measure c <= n) by lia. clear En. revert c Hle.
    induction n as [|n IH]; intros c Hm Hc; destruct (progress _ _ Hc) as [[out E]|[c' Hs]].
    - exists 0, c, out. split; [constructor|exact E].
    - pose proof (step_measure _ _ _ Hc Hs). lia.
    - exists 0, c, out. split; [constructor|exact E].
    - pose proof (step_measure _ _ _ Hc Hs) as Hlt.
      destruct (IH c' ltac:(lia) (step_inv _ _ _ Hc Hs)) as (k & c2 & out & H1 & H2).
      exists (S k), c2, out. split; [econstructor; eauto|exact H2].
  Qed.

  Lemma outputs_of_total lists ys :
    mapM process (concat lists) = Ok ys -> flat_map (thread_output process) lists = ys.
  Proof.
    revert ys; induction lists as [|l lists IH]; simpl; intros ys H; [congruence|].
    rewrite mapM_app in H. apply rbind_Ok in H. destruct H as (a & Ha & H). apply rbind_Ok in H. destruct H as (b & Hb & H).
    injection H as <-. rewrite (IH b Hb). unfold thread_output. rewrite Ha. reflexivity.
  Qed.
End ThreadProofs.

(** The function used by the callers is what every schedule returns. *)
Lemma run_multithreads_correct {A B} (process : A -> res B) items n :
  (1 <= n)%Z -> (Z.of_nat (length items) <= 2 ^ 53)%Z ->
  exists out, run_multithreads process items n = Ok out /\ forall out', run_multithreads_returns process items n out' <-> out' = out.
Proof.
  intros Hn HL. destruct (divide_list_ok items n Hn HL) as (ls & E & C).
  unfold run_multithreads. rewrite E. simpl. eexists. split; [reflexivity|]. intros out'. split.
  - intros (ls' & k & c & E' & Hs & Hr). rewrite E in E'. injection E' as <-. eapply returned_value; eauto.
  - intros ->. destruct (exists_run process ls _ (init_inv process ls)) as (k & c & out & Hs & Hr).
    exists ls, k, c. split; [exact E|]. split; [exact Hs|]. rewrite Hr. f_equal. eapply returned_value; eauto.
Qed.

Lemma run_multithreads_total {A B} (process : A -> res B) items n ys :
  (1 <= n)%Z -> (Z.of_nat (length items) <= 2 ^ 53)%Z -> mapM process items = Ok ys ->
  run_multithreads process items n = Ok ys.
Proof.
  intros Hn HL Hm. destruct (divide_list_ok items n Hn HL) as (ls & E & C).
  unfold run_multithreads. rewrite E. simpl. f_equal. apply outputs_of_total. rewrite C. exact Hm.
Qed.

(** The schedule theorem in one statement. *)
Lemma every_schedule {A B} (process : A -> res B) items n lists k c :
  (1 <= n)%Z -> (Z.of_nat (length items) <= 2 ^ 53)%Z ->
  (forall x, In x items -> exists y, process x = Ok y) ->
  divide_list items n = Ok lists -> steps process k (init_config lists) c ->
  k <= 3 * length lists + length items + 2 /\
  (forall out, c_main c = Returned out -> Forall2 (fun x y => process x = Ok y) items out) /\
  ((exists out, c_main c = Returned out) \/ exists c', step process c c').
Proof.
  intros Hn HL Hp E Hs. destruct (divide_list_ok items n Hn HL) as (ls & E' & C). rewrite E in E'. injection E' as <-.
  pose proof (init_inv process lists) as I0. split; [|split].
  - pose proof (steps_bound process lists k _ _ I0 Hs) as Hb. rewrite init_measure in Hb.
    assert (list_sum (map (fun l : list A => S (length l)) lists) = length lists + length items).
    { rewrite <- C. clear. induction lists as [|l ls IH]; simpl; [reflexivity|]. rewrite app_length. lia. }
    lia.
  - intros out Hr. pose proof (returned_value process lists k c out Hs Hr) as ->.
    assert (Hys : exists ys, mapM process items = Ok ys).
    { pose proof (mapM_ok_all process items) as M. destruct (mapM process items); [eauto|].
      exfalso. cbn [is_ok] in M. assert (false = true); [|discriminate]. apply M. intros x Hx.
      destruct (Hp x Hx) as [y ->]. reflexivity. }
    destruct Hys as [ys Hys].
    assert (flat_map (thread_output process) lists = ys) as ->.
    { apply outputs_of_total. rewrite C. exact Hys. }
    apply mapM_Ok_Forall2. exact Hys.
  - apply (progress process lists). eapply steps_inv; eauto.
Qed.
