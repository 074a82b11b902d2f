(** Properties C13-C17 and C65-C70: scrappybara/utils. *)
From Coq Require Import Ascii String.
From Coq Require Import List NArith ZArith QArith Qround Arith Bool Lia Permutation.
From Verif Require Import PyBase Regex MUtils SUtils LBase LUtils LText.
Import ListNotations.
Local Open Scope nat_scope.

(** * C13: run_multithreads is map, whatever the schedule *)
(** For every interleaving: it stops within a bounded number of steps, it is never stuck, and a
    returned list is [process x] for the [x] of [items], in order. *)
Theorem C13_run_multithreads_is_map : forall (A B : Type) (process : A -> res B) (items : list A) (n : Z) lists k c,
  (1 <= n)%Z -> (Z.of_nat (length items) <= 2 ^ 53)%Z ->
  (forall x, In x items -> exists y, process x = Ok y) ->
  divide_list items n = Ok lists -> steps process k (init_config lists) c ->
  k <= 3 * length lists + length items + 2 /\
  (forall out, c_main c = Returned out -> Forall2 (fun x y => process x = Ok y) items out) /\
  ((exists out, c_main c = Returned out) \/ exists c', step process c c').
Proof. intros. eapply every_schedule; eauto. Qed.
(** The call does return, for every [n >= 1], and what it returns is unique. *)
Theorem C13_run_multithreads_returns : forall (A B : Type) (process : A -> res B) (items : list A) (n : Z) ys,
  (1 <= n)%Z -> (Z.of_nat (length items) <= 2 ^ 53)%Z ->
  Forall2 (fun x y => process x = Ok y) items ys ->
  forall out, run_multithreads_returns process items n out <-> out = ys.
Proof.
  intros A B process items n ys H1 H2 H3. apply mapM_Ok_Forall2 in H3.
  destruct (run_multithreads_correct process items n H1 H2) as (o & E & H).
  rewrite (run_multithreads_total process items n ys H1 H2 H3) in E. injection E as <-. exact H.
Qed.
Example C13_witness : exists lists, divide_list [1; 2; 3; 4; 5] 2 = Ok lists /\ length lists = 2 /\
  run_multithreads_returns (fun x => Ok (x * x)) [1; 2; 3; 4; 5] 2 [1; 4; 9; 16; 25].
Proof.
  eexists. split; [vm_compute; reflexivity|]. split; [reflexivity|].
  apply (C13_run_multithreads_returns _ _ (fun x => Ok (x * x)) _ _ [1; 4; 9; 16; 25]); [lia|vm_compute; discriminate|repeat constructor|reflexivity].
Qed.

(** * C14: refuted. A worker that raises loses the results of its whole sublist, silently. *)
Definition c14_process (x : nat) : res nat := if x =? 2 then Err ValueError else Ok x.
Theorem C14_refuted : exists (process : nat -> res nat) items n out,
  (exists x, In x items /\ process x = Err ValueError) /\
  run_multithreads_returns process items n out /\ length out < length items.
Proof.
  exists c14_process, [1; 2; 3; 4], 2%Z, [3; 4]. split; [|split].
  - exists 2. split; [simpl; auto|reflexivity].
  - destruct (run_multithreads_correct c14_process [1; 2; 3; 4] 2 ltac:(lia) ltac:(vm_compute; discriminate)) as (o & E & H).
    apply H. vm_compute in E. congruence.
  - simpl. lia.
Qed.
(** What does hold: the results are those of the sublists in which nothing raises, and nothing else.
    Missing for C14: no exception is reported for the other sublists. *)
Theorem C14_partial : forall (A B : Type) (process : A -> res B) (items : list A) (n : Z) out,
  (1 <= n)%Z -> (Z.of_nat (length items) <= 2 ^ 53)%Z -> run_multithreads_returns process items n out ->
  exists lists, divide_list items n = Ok lists /\ concat lists = items /\
    out = concat (map (fun l => match mapM process l with Ok ys => ys | Err _ => [] end) lists).
Proof.
  intros A B process items n out H1 H2 (ls & k & c & E & Hs & Hr).
  destruct (divide_list_ok items n H1 H2) as (ls' & E' & C). rewrite E in E'. injection E' as <-.
  exists ls. split; [exact E|]. split; [exact C|]. rewrite <- flat_map_concat_map. eapply returned_value; eauto.
Qed.

(** * C15: divide_list is a partition, despite floating point cuts *)
Theorem C15_divide_list_partition : forall (A : Type) (items : list A) (n : Z),
  (Z.of_nat (length items) <= 2 ^ 53)%Z ->
  ((n <= 0)%Z -> divide_list items n = Err AssertionError) /\
  ((1 <= n <= Z.of_nat (length items))%Z ->
     exists ls, divide_list items n = Ok ls /\ concat ls = items /\ Z.of_nat (length ls) = n) /\
  ((1 <= n)%Z -> (Z.of_nat (length items) < n)%Z -> divide_list items n = Ok (map (fun x => [x]) items)).
Proof.
  intros A items n HL. split; [|split].
  - intros H. unfold divide_list. apply Z.leb_le in H. rewrite H. reflexivity.
  - intros [H1 H2]. destruct (divide_list_spec items (Z.to_nat n) ltac:(lia) ltac:(lia) HL) as (ls & E & C & Hl).
    rewrite Z2Nat.id in E by lia. exists ls. repeat split; auto. lia.
  - intros H1 H2. apply divide_list_more; assumption.
Qed.
Example C15_witness : divide_list [1; 2; 3; 4; 5; 6; 7] 3 = Ok [[1; 2]; [3; 4]; [5; 6; 7]].
Proof. vm_compute. reflexivity. Qed.

(** * C16: the lists are balanced *)
Theorem C16_divide_list_balanced : forall (A : Type) (items : list A) (n : Z) ls,
  (1 <= n)%Z -> (Z.of_nat (length items) * n <= 2 ^ 50)%Z ->
  divide_list items n = Ok ls ->
  Z.of_nat (length ls) = Z.min n (Z.of_nat (length items)) /\
  (forall l, In l ls -> l <> []) /\ (forall l l', In l ls -> In l' ls -> length l <= length l' + 1).
Proof.
  intros A items n ls H1' H2 E. destruct (Z.le_gt_cases n (Z.of_nat (length items))) as [H1|H1].
  2:{ rewrite divide_list_more in E by lia. injection E as <-. rewrite map_length. split; [lia|]. split.
      - intros l Hl. apply in_map_iff in Hl. destruct Hl as (x & <- & _). discriminate.
      - intros l l' Hl Hl'. apply in_map_iff in Hl. destruct Hl as (x & <- & _). apply in_map_iff in Hl'. destruct Hl' as (y & <- & _). cbn. lia. }
  split.
  { destruct (divide_list_spec items (Z.to_nat n) ltac:(lia) ltac:(lia) ltac:(nia)) as (ls' & E' & _ & HL).
    rewrite Z2Nat.id in E' by lia. rewrite E in E'. injection E' as <-. lia. }
  assert (H1'' : (1 <= n <= Z.of_nat (length items))%Z) by lia. clear H1 H1'. rename H1'' into H1.
  assert (HS : forall l, In l ls -> length items / Z.to_nat n <= length l <= length items / Z.to_nat n + 1).
  { intros l Hl. eapply (divide_list_sizes items (Z.to_nat n)) with (ls := ls); try (rewrite Z2Nat.id by lia); try assumption; try lia. }
  split.
  - intros l Hl ->. specialize (HS _ Hl). simpl in HS.
    assert (1 <= length items / Z.to_nat n) by (apply Nat.div_le_lower_bound; lia). lia.
  - intros l l' Hl Hl'. pose proof (HS _ Hl). pose proof (HS _ Hl'). lia.
Qed.
Example C16_witness : exists ls, divide_list (seq 0 10) 4 = Ok ls /\ map (@length nat) ls = [2; 3; 2; 3].
Proof. eexists. vm_compute. split; reflexivity. Qed.
Example C16_witness_more : divide_list [1; 2; 3] 7 = Ok [[1]; [2]; [3]].
Proof. vm_compute. reflexivity. Qed.

(** * C17: make_batches *)
Theorem C17_make_batches : forall (A : Type) (items : list A),
  (forall n, 1 <= n ->
     exists bs, make_batches items (Z.of_nat n) = Ok bs /\ concat bs = items /\
       (forall b, In b bs -> 1 <= length b <= n) /\
       (forall i b, nth_error bs i = Some b -> S i < length bs -> length b = n)) /\
  make_batches items 0 = Err ValueError.
Proof. intros A items. split; [intros n Hn; apply make_batches_spec; exact Hn|reflexivity]. Qed.
Example C17_witness : make_batches [1; 2; 3; 4; 5] 2 = Ok [[1; 2]; [3; 4]; [5]].
Proof. reflexivity. Qed.

(** * C65: xnor is a parity *)
Theorem C65_xnor_parity : forall l,
  (2 <= length l -> xnor l = Ok (Nat.even (count_false l))) /\
  (length l < 2 -> xnor l = Err IndexError) /\
  (forall l', Permutation l l' -> xnor l' = xnor l).
Proof.
  intros l. rewrite !xnor_spec. split; [|split].
  - intros H. replace (length l <? 2) with false by (symmetry; apply Nat.ltb_ge; lia). reflexivity.
  - intros H. replace (length l <? 2) with true by (symmetry; apply Nat.ltb_lt; lia). reflexivity.
  - intros l' HP. rewrite xnor_spec, (count_false_perm _ _ HP), (Permutation_length HP). reflexivity.
Qed.
Example C65_witness : xnor [true; false; false] = Ok true /\ xnor [true; false] = Ok false /\ xnor [true] = Err IndexError.
Proof. repeat split. Qed.

(** * C66: token_start, token_prefix *)
Theorem C66_token_start : forall w e k s, e <> [] ->
  (token_start w e k = Some s <-> w = s ++ e /\ s <> [] /\ k <= length s).
Proof. exact token_start_spec. Qed.
(** 45 is '-' *)
Theorem C66_token_prefix : forall w prefixes,
  (forall p b, token_prefix w prefixes = Some (p, b) -> w = p ++ b) /\
  (forall a b, w = a ++ 45%N :: b -> ~ In 45%N a -> ~ In 45%N b -> token_prefix w prefixes = Some (a ++ [45%N], b)) /\
  (~ occurs_once 45%N w ->
     (token_prefix w prefixes = None <-> forall p r, In p prefixes -> w <> p ++ r) /\
     (forall p b, token_prefix w prefixes = Some (p, b) -> In p prefixes)).
Proof.
  intros w ps. split; [|split; [|intros Ho; split]].
  - apply token_prefix_concat.
  - intros a b. apply token_prefix_hyphen.
  - rewrite token_prefix_other by exact Ho. destruct (find _ ps) as [p|] eqn:F.
    + apply find_some in F. destruct F as [F1 F2]. apply startswith_iff in F2. destruct F2 as [r F2].
      split; [discriminate|]. intros H. exfalso. exact (H p r F1 F2).
    + split; [|reflexivity]. intros _ p r Hp Hw. apply (find_none _ _ F) in Hp.
      assert (startswith w p = true) by (apply startswith_iff; eauto). congruence.
  - intros p b. rewrite token_prefix_other by exact Ho. destruct (find _ ps) as [q|] eqn:F; [|discriminate].
    intros E; injection E as <- <-. apply find_some in F. apply F.
Qed.
Example C66_witness : token_start (lit "walking") (lit "ing") 3 = Some (lit "walk") /\
  token_prefix (lit "e-mail") [] = Some (lit "e-", lit "mail") /\
  token_prefix (lit "undo") [lit "re"; lit "un"] = Some (lit "un", lit "do").
Proof. repeat split. Qed.

(** * C67: text marking round trips *)
(** 187, 449 and 40 are the code points of the three separators. *)
Theorem C67_round_trips :
  (forall t (attrs : list (option str)),
     detach_attributes (attach_attributes t attrs) = t :: not_none attrs <->
     Forall (fun s => ~ In 187%N s) (t :: not_none attrs)) /\
  (forall a b, dissociate (associate [Some a; Some b]) = Some (a, b) <-> ~ In 449%N a /\ ~ In 449%N b) /\
  (forall f a, defunctionalize (functionalize f [Some a]) = Ok (f, a) <-> ~ In 40%N f /\ ~ In 40%N a).
Proof. split; [exact detach_attach|split; [exact dissociate_associate|exact defunctionalize_functionalize]]. Qed.
Example C67_witness : defunctionalize (functionalize (lit "not") [Some (lit "happy)")]) = Ok (lit "not", lit "happy)") /\
  detach_attributes (attach_attributes (lit "a") [None; Some (lit "b")]) = [lit "a"; lit "b"] /\
  dissociate (associate [Some (lit "big"); Some (lit "dog")]) = Some (lit "big", lit "dog").
Proof. repeat split. Qed.

(** * C68: refuted: upper case letters are accepted *)
Theorem C68_refuted : exists w, has_only_lowercase_letters ascii_udb w = true /\ ~ ascii_lowercase_letters w.
Proof.
  exists (lit "Abc"). split; [vm_compute; reflexivity|]. intros [_ H]. inversion H; subst. vm_compute in H2. destruct H2 as [H2 _]. apply H2. reflexivity.
Qed.
(** What does hold, for any Unicode database: it accepts exactly the non-empty strings of ASCII
    letters, like has_only_letters. Missing for C68: upper case should be rejected. *)
Theorem C68_partial : forall U w,
  (has_only_letters U w = true <-> ascii_letters w) /\ (has_only_lowercase_letters U w = true <-> ascii_letters w).
Proof. intros U w. split; exact (has_only_letters_spec U w). Qed.
Example C68_witness : has_only_letters ascii_udb (lit "aZ") = true /\ has_only_letters ascii_udb (lit "a1") = false.
Proof. split; vm_compute; reflexivity. Qed.

(** * C69: displayed times *)
(** For a clock that never goes back, after any history of readings of the timer (a history being
    counted in clock readings from [r] on), the next lap read displays the time since the previous
    reading, the next total read displays the sum of all laps so far, and lap [i] is the interval
    between clock readings [r + 2 i] and [r + 2 i + 1]: laps do not overlap. *)
Theorem C69_timer : forall (clock : nat -> Q) (r : nat) (ops : list lap_op),
  (forall i, clock i <= clock (S i))%Q ->
  let t := fold_left (do_lap clock) ops (timer_init clock r) in
  let lap i := (clock (r + 2 * i + 1)%nat - clock (r + 2 * i)%nat)%Q in
  displays (fst (timer_lap_time clock t)) (lap (length ops)) /\
  displays (fst (timer_total_time clock t)) (qsum (S (length ops)) lap).
Proof. exact timer_history. Qed.
Example C69_witness :
  let clock i := inject_Z (4000 * Z.of_nat i) in
  let t := fold_left (do_lap clock) [ReadLap; ReadTotal] (timer_init clock 0) in
  fst (timer_lap_time clock t) = lit "1:06:40" /\ fst (timer_total_time clock t) = lit "3:20:00".
Proof. vm_compute. split; reflexivity. Qed.

(** * C70: grouping and reversing *)
Theorem C70_grouping : forall (K V : Type) (eqb : K -> K -> bool), (forall x y, eqb x y = true <-> x = y) ->
  forall l : list (K * V),
  let d := fold_left (fun d '(k, v) => append_to_dict_list eqb d k v) l [] in
  map fst d = firsts eqb (map fst l) /\ NoDup (map fst d) /\
  (forall k vs, In (k, vs) d <-> In k (map fst l) /\ vs = values_of eqb k l).
Proof.
  intros K V eqb Heqb l d. change d with (group eqb l). destruct (group_spec eqb Heqb l) as [H1 H2].
  assert (ND : NoDup (map fst (group eqb l))) by (change (map fst (group eqb l)) with (dkeys (group eqb l)); rewrite H1; apply NoDup_firsts; exact Heqb).
  split; [exact H1|]. split; [exact ND|]. intros k vs.
  assert (EX : existsb (fun p => eqb k (fst p)) l = true <-> In k (map fst l)).
  { rewrite existsb_exists, in_map_iff. split; intros ([a b] & P & Q0); exists (a, b); simpl in *; [|split; [exact Q0|apply Heqb; auto]].
    apply Heqb in Q0. auto. }
  split.
  - intros H. pose proof (In_dget eqb Heqb _ _ _ ND H) as G. rewrite H2 in G.
    destruct (existsb _ l) eqn:E; [|discriminate]. injection G as <-. split; [apply EX; reflexivity|reflexivity].
  - intros [Hk ->]. apply (dget_In eqb Heqb). rewrite H2. apply EX in Hk. rewrite Hk. reflexivity.
Qed.
(** A dictionary of sets keeps each item once. *)
Theorem C70_sets : forall (K V : Type) (eqb : K -> K -> bool) (veqb : V -> V -> bool),
  (forall x y, eqb x y = true <-> x = y) -> (forall x y, veqb x y = true <-> x = y) -> forall l : list (K * V),
  let d := fold_left (fun d '(k, v) => add_in_dict_set eqb veqb d k v) l [] in
  map fst d = firsts eqb (map fst l) /\ NoDup (map fst d) /\
  (forall k set, In (k, set) d -> NoDup set /\ forall v, In v set <-> In (k, v) l).
Proof.
  intros K V eqb veqb Heqb Hveqb l d.
  destruct (group_by eqb Heqb (fun w v => match w with Some s => if existsb (veqb v) s then s else s ++ [v] | None => [v] end) (fun d k v => add_in_dict_set eqb veqb d k v)
    ltac:(intros d0 k v; unfold add_in_dict_set; destruct (dget eqb k d0); reflexivity) l) as [H1 H2]. fold d in H1, H2.
  assert (ND : NoDup (map fst d)) by (change (map fst d) with (dkeys d); rewrite H1; apply NoDup_firsts; exact Heqb).
  split; [exact H1|]. split; [exact ND|]. intros k set Hin. apply (In_dget eqb Heqb _ _ _ ND) in Hin. rewrite H2 in Hin.
  assert (HV : forall v, In v (values_of eqb k l) <-> In (k, v) l).
  { intros v. unfold values_of. rewrite in_map_iff. split.
    - intros ([a b] & E & Hi). cbn in E. subst b. apply filter_In in Hi. destruct Hi as [Hi E]. apply Heqb in E. cbn in E. subst a. exact Hi.
    - intros Hi. exists (k, v). split; [reflexivity|]. apply filter_In. split; [exact Hi|]. apply Heqb. reflexivity. }
  assert (G : NoDup set /\ forall v, In v set <-> In v (values_of eqb k l)); [|destruct G as [G1 G2]; split; [exact G1|]; intros v; rewrite G2; apply HV].
  clear HV H1 H2. revert set Hin. induction (values_of eqb k l) as [|v vs IH] using rev_ind; intros set Hin; [discriminate|].
  rewrite fold_left_app in Hin. cbn [fold_left] in Hin. injection Hin as <-. destruct (fold_left _ vs None) as [s|] eqn:E.
  - destruct (IH s eq_refl) as [G1 G2]. destruct (existsb (veqb v) s) eqn:Ex.
    + apply existsb_exists in Ex. destruct Ex as (x & Hx & Ex). apply Hveqb in Ex. subst x. split; [exact G1|]. intros u. rewrite in_app_iff, G2. cbn. split; [auto|]. intros [H|[<-|[]]]; [exact H|]. apply G2. exact Hx.
    + split.
      * apply (Permutation_NoDup (l := v :: s)); [apply Permutation_cons_append|]. constructor; [|exact G1]. intros Hx. assert (existsb (veqb v) s = true); [|congruence]. apply existsb_exists. exists v. split; [exact Hx|]. apply Hveqb. reflexivity.
      * intros u. rewrite !in_app_iff, G2. tauto.
  - assert (vs = []) as -> by (destruct vs as [|x xs _] using rev_ind; [reflexivity|]; rewrite fold_left_app in E; discriminate E). split; [repeat constructor; intros []|]. intros u. reflexivity.
Qed.
(** A dictionary of dictionaries of lists groups by the two keys. *)
Theorem C70_nested : forall (K1 K2 V : Type) (eqb1 : K1 -> K1 -> bool) (eqb2 : K2 -> K2 -> bool),
  (forall x y, eqb1 x y = true <-> x = y) -> (forall x y, eqb2 x y = true <-> x = y) -> forall l : list (K1 * (K2 * V)),
  let d := fold_left (fun d '(k1, (k2, v)) => append_in_dict_dict_list eqb1 eqb2 d k1 k2 v) l [] in
  map fst d = firsts eqb1 (map fst l) /\ NoDup (map fst d) /\
  (forall k1 inner, In (k1, inner) d -> let items := values_of eqb1 k1 l in
     map fst inner = firsts eqb2 (map fst items) /\ NoDup (map fst inner) /\
     forall k2 vs, In (k2, vs) inner <-> In k2 (map fst items) /\ vs = values_of eqb2 k2 items).
Proof.
  intros K1 K2 V eqb1 eqb2 Heqb1 Heqb2 l d.
  destruct (group_by eqb1 Heqb1 (fun w p => append_to_dict_list eqb2 (match w with Some i => i | None => [] end) (fst p) (snd p)) (fun d k p => append_in_dict_dict_list eqb1 eqb2 d k (fst p) (snd p))
    ltac:(intros d0 k [k2 v]; unfold append_in_dict_dict_list, append_to_dict_list; cbn [fst snd]; destruct (dget eqb1 k d0) as [i|]; [destruct (dget eqb2 k2 i)|]; reflexivity) l) as [H1 H2].
  assert (Ed : fold_left (fun d '(k, v) => append_in_dict_dict_list eqb1 eqb2 d k (fst v) (snd v)) l [] = d).
  { unfold d. generalize (@nil (K1 * dict K2 (list V))). clear. induction l as [|[k1 [k2 v]] l IH]; intros d; [reflexivity|]. cbn [fold_left fst snd]. apply IH. }
  rewrite Ed in H1, H2. clearbody d. clear Ed.
  assert (ND : NoDup (map fst d)) by (change (map fst d) with (dkeys d); rewrite H1; apply NoDup_firsts; exact Heqb1).
  split; [exact H1|]. split; [exact ND|]. intros k1 inner Hin items. apply (In_dget eqb1 Heqb1 _ _ _ ND) in Hin. rewrite H2 in Hin. fold items in Hin.
  assert (inner = group eqb2 items) as ->.
  { clearbody items. clear -Hin. revert inner Hin. unfold group. induction items as [|[k2 v] items IH] using rev_ind; intros inner Hin; [discriminate|].
    rewrite fold_left_app in Hin |- *. cbn [fold_left fst snd] in *. injection Hin as <-. destruct (fold_left _ items None) as [i|] eqn:E.
    - rewrite (IH i eq_refl). reflexivity.
    - assert (items = []) as -> by (destruct items as [|x xs _] using rev_ind; [reflexivity|]; rewrite fold_left_app in E; discriminate E). reflexivity. }
  exact (C70_grouping K2 V eqb2 Heqb2 items).
Qed.
Example C70_more_witness :
  fold_left (fun d '(k, v) => add_in_dict_set Nat.eqb Nat.eqb d k v) [(2, 10); (1, 11); (2, 12); (2, 10)] [] = [(2, [10; 12]); (1, [11])] /\
  fold_left (fun d '(k1, (k2, v)) => append_in_dict_dict_list Nat.eqb Nat.eqb d k1 k2 v) [(2, (5, 10)); (1, (5, 11)); (2, (6, 12)); (2, (5, 13))] [] = [(2, [(5, [10; 13]); (6, [12])]); (1, [(5, [11])])].
Proof. split; reflexivity. Qed.
Theorem C70_reverse_dict : forall (K V : Type) (veqb : V -> V -> bool), (forall x y, veqb x y = true <-> x = y) ->
  forall (d : dict K V) v k,
  dget veqb v (reverse_dict veqb d) = Some k <-> exists d1 d2, d = d1 ++ (k, v) :: d2 /\ ~ In v (map snd d2).
Proof. intros. apply reverse_dget. assumption. Qed.
Theorem C70_reverse_twice : forall (K V : Type) (keqb : K -> K -> bool) (veqb : V -> V -> bool),
  (forall x y, keqb x y = true <-> x = y) -> (forall x y, veqb x y = true <-> x = y) ->
  forall d : dict K V, NoDup (map fst d) -> NoDup (map snd d) -> reverse_dict keqb (reverse_dict veqb d) = d.
Proof. intros. apply reverse_twice; assumption. Qed.
Example C70_witness :
  fold_left (fun d '(k, v) => append_to_dict_list Nat.eqb d k v) [(2, 10); (1, 11); (2, 12)] [] = [(2, [10; 12]); (1, [11])] /\
  reverse_dict Nat.eqb [(1, 5); (2, 6); (3, 5)] = [(5, 3); (6, 2)].
Proof. split; reflexivity. Qed.

Print Assumptions C13_run_multithreads_is_map.
Print Assumptions C13_run_multithreads_returns.
Print Assumptions C14_refuted.
Print Assumptions C14_partial.
Print Assumptions C15_divide_list_partition.
Print Assumptions C16_divide_list_balanced.
Print Assumptions C17_make_batches.
Print Assumptions C65_xnor_parity.
Print Assumptions C66_token_start.
Print Assumptions C66_token_prefix.
Print Assumptions C67_round_trips.
Print Assumptions C68_refuted.
Print Assumptions C68_partial.
Print Assumptions C69_timer.
Print Assumptions C70_grouping.
Print Assumptions C70_sets.
Print Assumptions C70_nested.
Print Assumptions C70_reverse_dict.
Print Assumptions C70_reverse_twice.
