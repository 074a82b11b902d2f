(** Proofs about the extraction of training data. *)
From Coq Require Import Ascii String.
From Coq Require Import List NArith ZArith Arith Bool Lia Permutation.
From Verif Require Import PyBase Regex MUtils MTree MVector MParser MLabelled MTrain SUtils STree SVector SParser SLabelled STrain LBase LText LTree LVector LParser LParserCall LOracle.
Import ListNotations.
Local Open Scope nat_scope.

(** * Names and values *)
Lemma tag_of_value t : tag_of_code (tag_value t) = Ok t.
Proof. destruct t; reflexivity. Qed.
Lemma dep_of_value d : dep_of_code (dep_value d) = Ok d.
Proof. destruct d; reflexivity. Qed.
Lemma tag_named_ok t : tag_named (tag_name t) = Ok t.
Proof. destruct t; reflexivity. Qed.
Lemma dep_named_ok d : dep_named (dep_name d) = Ok d.
Proof. destruct d; reflexivity. Qed.
Lemma tag_unknown n : (forall t, tag_name t <> n) -> tag_named n = Err KeyError.
Proof.
  intros H. unfold tag_named. destruct (dget str_eqb n tag_members) as [t|] eqn:E; [|reflexivity]. exfalso.
  apply (dget_In str_eqb str_eqb_ok) in E. apply (H t). unfold tag_members in E. cbn [In] in E.
  repeat (destruct E as [E|E]; [injection E as <- <-; reflexivity|]). destruct E.
Qed.
Lemma dep_unknown n : (forall t, dep_name t <> n) -> dep_named n = Err KeyError.
Proof.
  intros H. unfold dep_named. destruct (dget str_eqb n dep_members) as [t|] eqn:E; [|reflexivity]. exfalso.
  apply (dget_In str_eqb str_eqb_ok) in E. apply (H t). unfold dep_members in E. cbn [In] in E.
  repeat (destruct E as [E|E]; [injection E as <- <-; reflexivity|]). destruct E.
Qed.
Opaque tag_named dep_named tag_name dep_name.

Lemma find_named_root_app k pre rest : find_named_root k (map named pre ++ rest) =
  match find (fun '(_, t) => dep_eqb (tt_dep t) ROOT) (enum_from k pre) with
  | Some (r, _) => Ok (Some r) | None => find_named_root (k + length pre) rest end.
Proof.
  revert k; induction pre as [|t pre IH]; intros k; cbn [map app find_named_root enum_from find length].
  - rewrite Nat.add_0_r. reflexivity.
  - cbn [named nt_dep]. rewrite dep_named_ok. cbn [rbind]. destruct (dep_eqb (tt_dep t) ROOT); [reflexivity|]. rewrite IH.
    replace (S k + length pre) with (k + S (length pre)) by lia. reflexivity.
Qed.
Lemma find_named_root_ok tuples : find_named_root 0 (map named tuples) =
  Ok (match find (fun '(_, t) => dep_eqb (tt_dep t) ROOT) (enumerate tuples) with Some (r, _) => Some r | None => None end).
Proof.
  pose proof (find_named_root_app 0 tuples []) as H. rewrite app_nil_r in H. rewrite H. unfold enumerate. destruct (find _ _) as [[r t]|]; reflexivity.
Qed.
Definition read_step := (fun '(l, tr) '(child_idx, tu) =>
        let! d := dep_named (nt_dep tu) in
        let! g := tag_named (nt_tag tu) in
        let l' := {| l_tokens := l_tokens l ++ [nt_token tu]; l_tags := l_tags l ++ [g]; l_deps := l_deps l ++ [d]; l_tree := None |} in
        if negb (dep_in d [ROOT; NODEP]) && (-1 <? nt_parent tu)%Z
        then let! tr' := register_child tr d (Z.to_nat (nt_parent tu)) child_idx in Ok (l', tr')
        else Ok (l', tr)).
Definition read_gold := (fun tr '(child_idx, tu) =>
                       if negb (dep_in (tt_dep tu) [ROOT; NODEP]) && (-1 <? tt_parent tu)%Z
                       then register_child tr (tt_dep tu) (Z.to_nat (tt_parent tu)) child_idx
                       else Ok tr).
Lemma read_step_named l tr k t : read_step (l, tr) (k, named t) =
  let l' := {| l_tokens := l_tokens l ++ [tt_token t]; l_tags := l_tags l ++ [tt_tag t]; l_deps := l_deps l ++ [tt_dep t]; l_tree := None |} in
  if negb (dep_in (tt_dep t) [ROOT; NODEP]) && (-1 <? tt_parent t)%Z
  then let! tr' := register_child tr (tt_dep t) (Z.to_nat (tt_parent t)) k in Ok (l', tr') else Ok (l', tr).
Proof. unfold read_step. cbn [named nt_dep nt_tag nt_token nt_parent]. rewrite dep_named_ok, tag_named_ok. reflexivity. Qed.
Lemma read_named tuples : forall k l tr, l_tree l = None -> foldM read_step (l, tr) (enum_from k (map named tuples)) =
  match foldM read_gold tr (enum_from k tuples) with
  | Ok t => Ok ({| l_tokens := l_tokens l ++ map tt_token tuples; l_tags := l_tags l ++ map tt_tag tuples; l_deps := l_deps l ++ map tt_dep tuples; l_tree := None |}, t)
  | Err e => Err e
  end.
Proof.
  induction tuples as [|t tuples IH]; intros k l tr El.
  - cbn. destruct l as [a b c d]. cbn in *. rewrite !app_nil_r. subst. reflexivity.
  - cbn [map enum_from foldM]. rewrite read_step_named. change (read_gold tr (k, t)) with (if negb (dep_in (tt_dep t) [ROOT; NODEP]) && (-1 <? tt_parent t)%Z
      then register_child tr (tt_dep t) (Z.to_nat (tt_parent t)) k else Ok tr).
    destruct (negb (dep_in (tt_dep t) [ROOT; NODEP]) && (-1 <? tt_parent t)%Z).
    + destruct (register_child tr (tt_dep t) (Z.to_nat (tt_parent t)) k) as [tr'|e]; cbn [rbind]; [|reflexivity].
      rewrite IH by reflexivity. cbn [l_tokens l_tags l_deps]. rewrite <- !app_assoc. reflexivity.
    + cbn [rbind]. rewrite IH by reflexivity. cbn [l_tokens l_tags l_deps]. rewrite <- !app_assoc. reflexivity.
Qed.
Lemma labelled_named tuples : make_labelled_named (map named tuples) = make_labelled tuples.
Proof.
  unfold make_labelled_named, make_labelled. rewrite find_named_root_ok. cbn [rbind].
  destruct (find _ (enumerate tuples)) as [[r t]|]; [|reflexivity].
  match goal with |- rbind (foldM ?f _ _) _ = rbind (foldM ?g _ _) _ => change f with read_step; change g with read_gold end.
  unfold enumerate at 1. rewrite read_named by reflexivity. fold (enumerate tuples). destruct (foldM read_gold (new_tree r) (enumerate tuples)); reflexivity.
Qed.
Lemma enum_from_app {A} (a b : list A) k : enum_from k (a ++ b) = enum_from k a ++ enum_from (k + length a) b.
Proof. revert k; induction a as [|x a IH]; intros k; cbn; [rewrite Nat.add_0_r; reflexivity|]. rewrite IH. replace (k + S (length a)) with (S k + length a) by lia. reflexivity. Qed.

(** * Loading sentences *)
Lemma find_rooted tuples : rooted tuples -> exists r t, nth_error tuples r = Some t /\ tt_dep t = ROOT /\ find (fun '(_, t) => dep_eqb (tt_dep t) ROOT) (enumerate tuples) = Some (r, t).
Proof.
  intros (t & Hin & Ed). destruct (find _ (enumerate tuples)) as [[r t']|] eqn:E.
  - exists r, t'. pose proof (find_some _ _ E) as [Hi E']. apply dep_eqb_ok in E'. apply enum_from_In in Hi. destruct Hi as [_ Hi]. rewrite Nat.sub_0_r in Hi. auto.
  - exfalso. apply In_nth_error in Hin. destruct Hin as [r Er]. eapply find_none in E; [|apply enum_from_In; split; [apply Nat.le_0_l|rewrite Nat.sub_0_r; exact Er]].
    cbn in E. rewrite Ed in E. discriminate.
Qed.
Lemma find_unrooted tuples : ~ rooted tuples -> find (fun '(_, t) => dep_eqb (tt_dep t) ROOT) (enumerate tuples) = None.
Proof.
  intros H. destruct (find _ (enumerate tuples)) as [[r t']|] eqn:E; [|reflexivity]. exfalso. apply H.
  apply find_some in E. destruct E as [Hi E']. apply dep_eqb_ok in E'. apply enum_from_In in Hi. destruct Hi as [_ Hi]. rewrite Nat.sub_0_r in Hi.
  exists t'. split; [eapply nth_error_In; exact Hi|exact E'].
Qed.
Lemma rooted_dec tuples : {rooted tuples} + {~ rooted tuples}.
Proof.
  destruct (existsb (fun t => dep_eqb (tt_dep t) ROOT) tuples) eqn:E; [left|right].
  - apply existsb_exists in E. destruct E as (t & H & E). apply dep_eqb_ok in E. exists t. auto.
  - intros (t & H & Ed). assert (existsb (fun t => dep_eqb (tt_dep t) ROOT) tuples = true); [|congruence].
    apply existsb_exists. exists t. split; [exact H|]. apply dep_eqb_ok. exact Ed.
Qed.
Lemma no_self_loop tuples : no_self tuples -> no_loop (gold tuples).
Proof. intros H. apply Forall_forall. intros [[l p] c] Hin. cbn. intros ->. apply gold_In in Hin. exact (H _ _ Hin). Qed.
Lemma fold_gold_ok tuples r : no_self tuples -> foldM read_gold (new_tree r) (enumerate tuples) = Ok (tree_of r (gold tuples)).
Proof.
  intros H. unfold read_gold. rewrite foldM_gold.
  change (foldM (fun t0 '(l, p, c) => register_child t0 l p c) (new_tree r) (flat_map gold_of (enumerate tuples))) with (build r (gold tuples)).
  apply build_ok. apply no_self_loop. exact H.
Qed.
Lemma load_rooted tuples : rooted tuples -> no_self tuples -> exists tr,
  make_labelled tuples = Ok {| l_tokens := map tt_token tuples; l_tags := map tt_tag tuples; l_deps := map tt_dep tuples; l_tree := Some tr |}.
Proof.
  intros HR HN. destruct (find_rooted _ HR) as (r & t & Er & Et & EF). unfold make_labelled. rewrite EF.
  match goal with |- context [foldM ?g _ _] => change g with read_gold end. rewrite fold_gold_ok by exact HN. cbn [rbind]. eauto.
Qed.
Definition views (k : list token_tuple) (l : labelled) : Prop :=
  l_tokens l = map tt_token k /\ l_tags l = map tt_tag k /\ l_deps l = map tt_dep k.
Lemma load_ok tuples : no_self tuples -> exists k l, kept tuples k /\ make_labelled tuples = Ok l /\ views k l.
Proof.
  intros HN. destruct (rooted_dec tuples) as [HR|HR].
  - destruct (load_rooted _ HR HN) as [tr E]. exists tuples. eexists. split; [constructor; exact HR|]. split; [exact E|]. repeat split.
  - exists []. eexists. split; [constructor; exact HR|]. split; [unfold make_labelled; rewrite find_unrooted by exact HR; reflexivity|]. repeat split.
Qed.
Lemma load_self tuples : rooted tuples -> ~ no_loop (gold tuples) -> make_labelled tuples = Err AssertionError.
Proof.
  intros HR HN. destruct (find_rooted _ HR) as (r & t & Er & Et & EF). unfold make_labelled. rewrite EF, foldM_gold.
  change (flat_map gold_of (enumerate tuples)) with (gold tuples). assert (E : forall G t0, ~ no_loop G -> foldM (fun t '(l, p, c) => register_child t l p c) t0 G = Err AssertionError).
  { induction G as [|[[l p] c] G IH]; intros t0 H; [exfalso; apply H; constructor|]. cbn [foldM]. unfold register_child at 1.
    destruct (Nat.eqb_spec p c) as [->|Hne]; cbn [rbind]; [reflexivity|]. apply IH. intros HG. apply H. constructor; [exact Hne|exact HG]. }
  rewrite E by exact HN. reflexivity.
Qed.
Lemma kept_fun t k k' : kept t k -> kept t k' -> k = k'.
Proof. intros H H'. destruct H; inversion H'; subst; try reflexivity; contradiction. Qed.

(** * Rows *)
Lemma label_row_ok {A} (decode : nat -> res A) (value : A -> nat) labels : (forall a, decode (value a) = Ok a) -> length labels <= 50 ->
  pad_array ([0] ++ map value labels ++ [0]) PADDED_SENT_LENGTH = 0 :: map value labels ++ repeat 0 (51 - length labels) /\
  label_row decode labels (0 :: map value labels ++ repeat 0 (51 - length labels)).
Proof.
  intros HD Hl. split.
  - rewrite pad_array_short; [|unfold PADDED_SENT_LENGTH, MAX_SENT_LENGTH; lia|cbn [app length]; rewrite app_length, map_length; cbn; unfold PADDED_SENT_LENGTH, MAX_SENT_LENGTH; lia].
    cbn [app length]. rewrite app_length, map_length. cbn [length]. f_equal. rewrite <- app_assoc. f_equal. unfold PADDED_SENT_LENGTH, MAX_SENT_LENGTH.
    replace (51 - length labels) with (S (50 + 2 - S (length labels + 1))) by lia. reflexivity.
  - split; [cbn [length]; rewrite app_length, map_length, repeat_length; lia|]. split.
    + intros i a E. exists (value a). split; [|apply HD]. rewrite Nat.add_1_r. cbn [nth_error].
      rewrite nth_error_app1 by (rewrite map_length; apply nth_error_Some; congruence). rewrite nth_error_map, E. reflexivity.
    + intros i c E [->|H]; [cbn in E; congruence|]. destruct i as [|i]; [lia|]. cbn [nth_error] in E. rewrite nth_error_app2 in E by (rewrite map_length; lia).
      apply nth_error_In in E. apply repeat_spec in E. exact E.
Qed.
Lemma tag_ids_ok tags : length tags <= 50 -> tag_ids tags = 0 :: map tag_value tags ++ repeat 0 (51 - length tags) /\ label_row tag_of_code tags (tag_ids tags).
Proof. intros H. destruct (label_row_ok tag_of_code tag_value tags tag_of_value H) as [E L]. unfold tag_ids. cbn [tag_value] in *. rewrite E. auto. Qed.
Lemma dep_ids_ok deps : length deps <= 50 -> dep_ids deps = 0 :: map dep_value deps ++ repeat 0 (51 - length deps) /\ label_row dep_of_code deps (dep_ids deps).
Proof. intros H. destruct (label_row_ok dep_of_code dep_value deps dep_of_value H) as [E L]. unfold dep_ids. cbn [dep_value] in *. rewrite E. auto. Qed.
Lemma make_mask_hot i : i < 52 -> exists m, make_mask i = Ok m /\ one_hot i m.
Proof.
  intros H. unfold make_mask. destruct (Nat.ltb_spec i PADDED_SENT_LENGTH) as [_|Hi]; [|unfold PADDED_SENT_LENGTH, MAX_SENT_LENGTH in Hi; lia].
  eexists. split; [reflexivity|]. split; [rewrite !app_length, !repeat_length; cbn [length]; unfold PADDED_SENT_LENGTH, MAX_SENT_LENGTH; lia|]. split; [exact H|].
  intros j b E. destruct (Nat.lt_trichotomy j i) as [Hj|[->|Hj]].
  - rewrite nth_error_app1 in E by (rewrite repeat_length; lia). apply nth_error_In, repeat_spec in E. subst. split; [discriminate|lia].
  - rewrite nth_error_app2 in E by (rewrite repeat_length; lia). rewrite repeat_length, Nat.sub_diag in E. cbn in E. injection E as <-. tauto.
  - rewrite nth_error_app2 in E by (rewrite repeat_length; lia). rewrite repeat_length in E. destruct (j - i) as [|k] eqn:Ek; [lia|]. cbn in E.
    apply nth_error_In, repeat_spec in E. subst. split; [discriminate|lia].
Qed.
Lemma one_hot_inj i j m : one_hot i m -> one_hot j m -> i = j.
Proof.
  intros (L & Hi & H) (_ & Hj & H'). destruct (nth_error m i) as [b|] eqn:E; [|apply nth_error_None in E; lia].
  assert (b = true) as -> by (apply (H i); [exact E|reflexivity]). apply (H' i true E). reflexivity.
Qed.

(** * The transitions of any sentence *)
Lemma oracle_total t : forall fuel stack buffer, 2 * length buffer + length stack <= S fuel ->
  exists out, oracle_loop fuel t stack buffer = Ok out /\ Forall (fun '(s, b, _) => In s (stack ++ buffer) /\ In b buffer) out.
Proof.
  induction fuel as [|fuel IH]; intros stack buffer Hf.
  - destruct buffer as [|b [|? ?]]; cbn in *; try lia. eexists. split; [reflexivity|constructor].
  - destruct buffer as [|b bs]; [eexists; split; [reflexivity|constructor]|]. destruct stack as [|s ss]; cbn [oracle_loop].
    + destruct (IH [b] bs) as (out & E & HF); [cbn in *; lia|]. rewrite E. exists out. split; [reflexivity|]. eapply Forall_impl; [|exact HF].
      intros [[s b'] k] [H1 H2]. split; [exact H1|right; exact H2].
    + assert (K : forall st bf k, (st = ss /\ bf = b :: bs) \/ (st = b :: s :: ss /\ bf = bs) ->
        exists out, (let! r := oracle_loop fuel t st bf in Ok ((s, b, k) :: r)) = Ok out /\ Forall (fun '(s0, b0, _) => In s0 ((s :: ss) ++ b :: bs) /\ In b0 (b :: bs)) out).
      { intros st bf k H. destruct (IH st bf) as (out & E & HF); [destruct H as [[-> ->]|[-> ->]]; cbn in *; lia|]. rewrite E. cbn [rbind]. eexists. split; [reflexivity|].
        constructor; [split; [left; reflexivity|left; reflexivity]|]. eapply Forall_impl; [|exact HF]. intros [[s' b'] k'] [H1 H2].
        destruct H as [[-> ->]|[-> ->]]; (split; [|first [exact H2|right; exact H2]]); cbn in *; rewrite ?in_app_iff in *; cbn in *; tauto. }
      destruct (l_is_parent t b s); [apply K; auto|]. destruct (l_is_parent t s b); [apply K; auto|]. destruct (has_arc_before t b s); apply K; auto.
Qed.
Lemma valid_idxs_lt deps i : In i (valid_idxs deps) -> i < length deps.
Proof. rewrite valid_idxs_spec. intros H. apply in_tree_In in H. destruct H as (d & E & _). apply nth_error_Some. congruence. Qed.
Lemma transitions_total l : exists trs, transitions l = Ok trs /\ Forall (fun '(s, b, _) => s < length (l_deps l) /\ b < length (l_deps l)) trs.
Proof.
  unfold transitions. destruct (l_tree l) as [t|]; [|eexists; split; [reflexivity|constructor]].
  destruct (valid_idxs (l_deps l)) as [|b bs] eqn:E; [eexists; split; [reflexivity|constructor]|].
  destruct (oracle_total t (2 * length (b :: bs)) [b] bs) as (out & Eo & HF); [cbn; lia|]. exists out. split; [exact Eo|]. eapply Forall_impl; [|exact HF].
  intros [[s x] k] [H1 H2]. assert (HV : forall i, In i (b :: bs) -> i < length (l_deps l)) by (intros i Hi; apply valid_idxs_lt; rewrite E; exact Hi).
  split; apply HV; [exact H1|right; exact H2].
Qed.
(** no two transitions of a sentence are about the same two tokens *)
Lemma oracle_nodup t : forall fuel stack buffer out, oracle_loop fuel t stack buffer = Ok out -> NoDup (stack ++ buffer) ->
  NoDup (map fst out) /\ forall s b k, In (s, b, k) out -> In s (stack ++ buffer) /\ In b buffer.
Proof.
  induction fuel as [|fuel IH]; intros stack buffer out E ND.
  - destruct buffer; [|discriminate]. injection E as <-. split; [constructor|intros ? ? ? []].
  - destruct buffer as [|b bs]; [injection E as <-; split; [constructor|intros ? ? ? []]|]. destruct stack as [|s ss]; cbn [oracle_loop] in E.
    + destruct (IH _ _ _ E) as [H1 H2]; [exact ND|]. split; [exact H1|]. intros s b' k H. destruct (H2 _ _ _ H) as [A B]. split; [exact A|right; exact B].
    + assert (K : forall st bf k, (st = ss /\ bf = b :: bs) \/ (st = b :: s :: ss /\ bf = bs) ->
        (let! r := oracle_loop fuel t st bf in Ok ((s, b, k) :: r)) = Ok out -> NoDup (map fst out) /\ forall s0 b0 k0, In (s0, b0, k0) out -> In s0 ((s :: ss) ++ b :: bs) /\ In b0 (b :: bs)).
      { intros st bf k H E'. destruct (oracle_loop fuel t st bf) as [r|] eqn:Er; [|discriminate]. cbn [rbind] in E'. injection E' as <-.
        assert (HN : NoDup (st ++ bf)).
        { destruct H as [[-> ->]|[-> ->]]; cbn in ND; inversion ND as [|? ? Hn HD]; subst; [exact HD|]. cbn. constructor.
          - intros [<-|H]; [apply Hn; apply in_or_app; right; left; reflexivity|]. apply NoDup_remove in HD. destruct HD as [_ HD]. apply HD. exact H.
          - constructor; [|apply NoDup_remove in HD; apply HD]. intros H. apply Hn. apply in_app_or in H. apply in_or_app. destruct H; [left|right; right]; assumption. }
        destruct (IH _ _ _ Er HN) as [H1 H2]. split.
        - cbn. constructor; [|exact H1]. intros Hin. apply in_map_iff in Hin. destruct Hin as ([[s' b'] k'] & Ee & Hin). cbn in Ee. injection Ee as -> ->.
          destruct (H2 _ _ _ Hin) as [A B]. destruct H as [[-> ->]|[-> ->]].
          + cbn in ND. inversion ND as [|? ? Hn _]; subst. apply Hn. exact A.
          + cbn in HN. inversion HN as [|? ? Hn _]; subst. apply Hn. right. apply in_or_app. right. exact B.
        - intros s0 b0 k0 [Ee|Hin]; [injection Ee as <- <- <-; split; [left; reflexivity|left; reflexivity]|]. destruct (H2 _ _ _ Hin) as [A B].
          destruct H as [[-> ->]|[-> ->]]; cbn in *; rewrite ?in_app_iff in *; cbn in *; tauto. }
      destruct (l_is_parent t b s); [eapply K; [|exact E]; auto|]. destruct (l_is_parent t s b); [eapply K; [|exact E]; auto|]. destruct (has_arc_before t b s); (eapply K; [|exact E]; auto).
Qed.
Lemma SS_NoDup l : Sorted.StronglySorted lt l -> NoDup l.
Proof. induction 1 as [|a l H IH HF]; constructor; [|exact IH]. intros Hin. rewrite Forall_forall in HF. specialize (HF _ Hin). lia. Qed.
Lemma transitions_nodup l trs : transitions l = Ok trs -> NoDup (map fst trs).
Proof.
  unfold transitions. destruct (l_tree l) as [t|]; [|intros E; injection E as <-; constructor].
  destruct (valid_idxs (l_deps l)) as [|b bs] eqn:E; [intros E'; injection E' as <-; constructor|]. intros E'. apply oracle_nodup in E'; [apply E'|].
  cbn [app]. rewrite <- E, valid_idxs_spec. apply SS_NoDup, in_tree_sorted.
Qed.

(** * Columns *)
Lemma mapM_exists {A B} (f : A -> res B) (P : A -> B -> Prop) l : (forall x, In x l -> exists y, f x = Ok y /\ P x y) -> exists ys, mapM f l = Ok ys /\ Forall2 P l ys.
Proof.
  induction l as [|x l IH]; intros H; [exists []; split; [reflexivity|constructor]|]. destruct (H x (or_introl eq_refl)) as (y & E & Hy).
  destruct IH as (ys & Es & HF); [intros; apply H; right; assumption|]. exists (y :: ys). cbn [mapM]. rewrite E. cbn [rbind]. rewrite Es. split; [reflexivity|constructor; assumption].
Qed.
Lemma combine3 {A B C} (rows : list (A * B * C)) :
  combine (combine (map (fun '(a, _, _) => a) rows) (map (fun '(_, b, _) => b) rows)) (map (fun '(_, _, c) => c) rows) = rows.
Proof. induction rows as [|[[a b] c] rows IH]; cbn; [reflexivity|]. rewrite IH. reflexivity. Qed.
Lemma combine4 {A B C D} (rows : list (A * B * C * D)) :
  combine (combine (combine (map (fun '(a, _, _, _) => a) rows) (map (fun '(_, b, _, _) => b) rows)) (map (fun '(_, _, c, _) => c) rows)) (map (fun '(_, _, _, d) => d) rows) = rows.
Proof. induction rows as [|[[[a b] c] d] rows IH]; cbn; [reflexivity|]. rewrite IH. reflexivity. Qed.
Lemma combine7 {A B C D E F G} (rows : list (A * B * C * D * E * F * G)) :
  combine (combine (combine (combine (combine (combine (map (fun '(a, _, _, _, _, _, _) => a) rows) (map (fun '(_, b, _, _, _, _, _) => b) rows))
    (map (fun '(_, _, c, _, _, _, _) => c) rows)) (map (fun '(_, _, _, d, _, _, _) => d) rows)) (map (fun '(_, _, _, _, e, _, _) => e) rows))
    (map (fun '(_, _, _, _, _, f, _) => f) rows)) (map (fun '(_, _, _, _, _, _, g) => g) rows) = rows.
Proof. induction rows as [|[[[[[[a b] c] d] e] f] g] rows IH]; cbn; [reflexivity|]. rewrite IH. reflexivity. Qed.

Section Extract.
  Context (V : Type) (v0 : V) (U : udb) (cs : charset) (ws : wordset V).
  Hypothesis HW : ws_ok V ws.
  Notation vectorize := (vectorize_sentence V v0 U cs ws).

  Lemma vec_total tokens : length tokens <= 50 -> exists d, vectorize tokens = Ok d /\ m_length d = length tokens + 2.
  Proof. intros H. eexists. split; [apply vectorize_ok; [exact HW|exact H]|reflexivity]. Qed.

  Lemma tags_sample_ok k l : views k l -> length k <= 50 ->
    exists r, ptags_sample V v0 U cs ws (l_tokens l) (l_tags l) = Ok r /\ tags_example V v0 U cs ws k r.
  Proof.
    intros (E1 & E2 & _) Hl. unfold ptags_sample. rewrite E1, E2. destruct (vec_total (map tt_token k)) as (d & Ed & _); [rewrite map_length; exact Hl|].
    rewrite Ed. cbn [rbind]. eexists. split; [reflexivity|]. exists d, (tag_ids (map tt_tag k)). split; [exact Ed|]. split; [|reflexivity].
    apply tag_ids_ok. rewrite map_length. exact Hl.
  Qed.
  Lemma deps_sample_ok k l : views k l -> length k <= 50 ->
    exists r, pdeps_sample V v0 U cs ws (l_tokens l) (l_tags l) (l_deps l) = Ok r /\ deps_example V v0 U cs ws k r.
  Proof.
    intros (E1 & E2 & E3) Hl. unfold pdeps_sample. rewrite E1, E2, E3. destruct (vec_total (map tt_token k)) as (d & Ed & _); [rewrite map_length; exact Hl|].
    rewrite Ed. cbn [rbind]. eexists. split; [reflexivity|]. exists d, (tag_ids (map tt_tag k)), (dep_ids (map tt_dep k)). split; [exact Ed|]. split; [|split; [|reflexivity]].
    - apply tag_ids_ok. rewrite map_length. exact Hl.
    - apply dep_ids_ok. rewrite map_length. exact Hl.
  Qed.
  Lemma trans_sample_ok k l s b t : views k l -> length k <= 50 -> s < length k -> b < length k ->
    exists r, trans_sample V v0 U cs ws (l_tokens l) (l_tags l) (l_deps l) s b t = Ok r /\ trans_example V v0 U cs ws k (s, b, t) r.
  Proof.
    intros (E1 & E2 & E3) Hl Hs Hb. unfold trans_sample. rewrite E1, E2, E3. destruct (vec_total (map tt_token k)) as (d & Ed & _); [rewrite map_length; exact Hl|].
    rewrite Ed. cbn [rbind]. unfold make_masks. destruct (make_mask_hot (s + 1)) as (m1 & M1 & O1); [lia|]. destruct (make_mask_hot (b + 1)) as (m2 & M2 & O2); [lia|].
    rewrite M1. cbn [rbind]. rewrite M2. cbn [rbind fst snd]. eexists. split; [reflexivity|].
    exists d, (tag_ids (map tt_tag k)), (dep_ids (map tt_dep k)), m1, m2. split; [exact Ed|]. split; [apply tag_ids_ok; rewrite map_length; exact Hl|].
    split; [apply dep_ids_ok; rewrite map_length; exact Hl|]. split; [exact O1|]. split; [exact O2|]. destruct t; reflexivity.
  Qed.
  (** the transitions of a sentence without root are those of the empty sentence *)
  Lemma sentence_trans_ok tuples k l : kept tuples k -> make_labelled tuples = Ok l -> views k l -> length k <= 50 ->
    exists rows, (let! trs := transitions l in
        mapM (fun '(idx_1, idx_2, transition) => trans_sample V v0 U cs ws (l_tokens l) (l_tags l) (l_deps l) idx_1 idx_2 transition) trs) = Ok rows /\
      sentence_trans V v0 U cs ws k rows.
  Proof.
    intros HK El HV Hl. destruct (transitions_total l) as (trs & Et & HF). rewrite Et. cbn [rbind].
    destruct (mapM_exists (fun '(idx_1, idx_2, transition) => trans_sample V v0 U cs ws (l_tokens l) (l_tags l) (l_deps l) idx_1 idx_2 transition)
      (trans_example V v0 U cs ws k) trs) as (rows & Er & HR).
    { intros [[s b] t] Hin. rewrite Forall_forall in HF. specialize (HF _ Hin). cbn in HF. destruct HV as (V1 & V2 & V3). rewrite V3, map_length in HF.
      apply trans_sample_ok; [split; auto|exact Hl|apply HF|apply HF]. }
    exists rows. split; [exact Er|]. destruct HK as [tu HR'|tu HR'].
    - exists l, trs. auto.
    - exists {| l_tokens := []; l_tags := []; l_deps := []; l_tree := None |}, []. split; [reflexivity|]. split; [reflexivity|].
      unfold make_labelled in El. rewrite find_unrooted in El by exact HR'. injection El as <-. cbn in Et. injection Et as <-. inversion HR. constructor.
  Qed.

  Definition ready (tuples : list token_tuple) : Prop := no_self tuples /\ (rooted tuples -> length tuples <= 50).
  Lemma ready_load data : Forall ready data -> exists ls, mapM make_labelled_named (map (map named) data) = Ok ls /\
    Forall2 (fun tuples l => make_labelled tuples = Ok l /\ exists k, kept tuples k /\ views k l /\ length k <= 50) data ls.
  Proof.
    induction data as [|tu data IH]; intros H; [exists []; split; [reflexivity|constructor]|]. inversion H as [|? ? [HN HL] HD]; subst.
    destruct (IH HD) as (ls & E & HF). destruct (load_ok tu HN) as (k & l & HK & El & HV). exists (l :: ls).
    cbn [map mapM]. rewrite labelled_named, El. cbn [rbind]. rewrite E. split; [reflexivity|]. constructor; [|exact HF]. split; [exact El|]. exists k.
    split; [exact HK|]. split; [exact HV|]. destruct HK; [apply HL; assumption|cbn; lia].
  Qed.
  Lemma samples_from {B} (f : labelled -> res B) (P : list token_tuple -> B -> Prop) data ls :
    Forall2 (fun tuples l => make_labelled tuples = Ok l /\ exists k, kept tuples k /\ views k l /\ length k <= 50) data ls ->
    (forall tuples k l, kept tuples k -> make_labelled tuples = Ok l -> views k l -> length k <= 50 -> exists r, f l = Ok r /\ P k r) ->
    exists rs, mapM f ls = Ok rs /\ Forall2 (fun tuples r => exists k, kept tuples k /\ P k r) data rs.
  Proof.
    intros HF Hf. induction HF as [|tu l data ls (El & k & HK & HV & HL) _ IH]; [exists []; split; [reflexivity|constructor]|].
    destruct IH as (rs & E & HR). destruct (Hf tu k l HK El HV HL) as (r & Er & Hr). exists (r :: rs). cbn [mapM]. rewrite Er. cbn [rbind]. rewrite E.
    split; [reflexivity|]. constructor; [eauto|exact HR].
  Qed.
End Extract.

Lemma mapM_In_out {A B} (f : A -> res B) l ys x : mapM f l = Ok ys -> In x l -> exists y, f x = Ok y /\ In y ys.
Proof.
  revert ys; induction l as [|a l IH]; intros ys E Hin; [destruct Hin|]. cbn [mapM] in E. destruct (f a) as [b|] eqn:Ea; [|discriminate]. cbn [rbind] in E.
  destruct (mapM f l) as [bs|] eqn:El; [|discriminate]. cbn [rbind] in E. injection E as <-. destruct Hin as [<-|Hin]; [exists b; split; [exact Ea|left; reflexivity]|].
  destruct (IH bs eq_refl Hin) as (y & E & Hy). exists y. split; [exact E|right; exact Hy].
Qed.
Lemma mapM_err {A B} (f : A -> res B) e l : (forall x, In x l -> (exists y, f x = Ok y) \/ f x = Err e) -> (exists x, In x l /\ f x = Err e) -> mapM f l = Err e.
Proof.
  induction l as [|a l IH]; intros H (x & Hin & Ex); [destruct Hin|]. cbn [mapM]. destruct (H a (or_introl eq_refl)) as [[y Ey]|Ey].
  - rewrite Ey. cbn [rbind]. rewrite IH; [reflexivity|intros; apply H; right; assumption|]. destruct Hin as [<-|Hin]; [congruence|]. eauto.
  - rewrite Ey. reflexivity.
Qed.
Lemma NoDup_rel {A B C D} (f : A -> B) (g : C -> D) (R : A -> C -> Prop) l l' : (forall a c a' c', R a c -> R a' c' -> g c = g c' -> f a = f a') ->
  Forall2 R l l' -> NoDup (map f l) -> NoDup (map g l').
Proof.
  intros HR HF. induction HF as [|a c l l' H HF IH]; intros ND; cbn in *; [constructor|]. inversion ND as [|? ? Hn HD]; subst. constructor; [|apply IH; exact HD].
  intros Hin. apply in_map_iff in Hin. destruct Hin as (c' & E & Hin). apply Hn. clear - HF Hin E HR H. induction HF as [|a0 c0 l l' H0 HF IH]; [destruct Hin|]. cbn.
  destruct Hin as [->|Hin]; [left; eapply HR; eauto|right; apply IH; exact Hin].
Qed.

Lemma columns3_at {A B C} (rows : list (A * B * C)) i a b c : nth_error rows i = Some (a, b, c) ->
  exists x y z, columns3 rows = Some (x, y, z) /\ nth_error x i = Some a /\ nth_error y i = Some b /\ nth_error z i = Some c.
Proof.
  intros E. unfold columns3. destruct rows as [|r rows]; [destruct i; discriminate|]. do 3 eexists. split; [reflexivity|]. rewrite !nth_error_map, E. auto.
Qed.
Lemma columns4_at {A B C D} (rows : list (A * B * C * D)) i a b c d : nth_error rows i = Some (a, b, c, d) ->
  exists x y z u, columns4 rows = Some (x, y, z, u) /\ nth_error x i = Some a /\ nth_error y i = Some b /\ nth_error z i = Some c /\ nth_error u i = Some d.
Proof.
  intros E. unfold columns4. destruct rows as [|r rows]; [destruct i; discriminate|]. do 4 eexists. split; [reflexivity|]. rewrite !nth_error_map, E. auto.
Qed.
Lemma columns7_at {A B C D E F G} (rows : list (A * B * C * D * E * F * G)) i a b c d e f g : nth_error rows i = Some (a, b, c, d, e, f, g) ->
  exists x y z u v w t, columns7 rows = Some (x, y, z, u, v, w, t) /\ nth_error x i = Some a /\ nth_error y i = Some b /\ nth_error z i = Some c /\ nth_error u i = Some d /\
    nth_error v i = Some e /\ nth_error w i = Some f /\ nth_error t i = Some g.
Proof.
  intros H. unfold columns7. destruct rows as [|r rows]; [destruct i; discriminate|]. do 7 eexists. split; [reflexivity|]. rewrite !nth_error_map, H. auto 8.
Qed.

(** * Learned models make the parser reproduce the labels *)
(** the index of the first token labelled ROOT *)
Definition gold_root (tuples : list token_tuple) : option nat := option_map fst (find (fun '(_, t) => dep_eqb (tt_dep t) ROOT) (enumerate tuples)).

Section Learned.
  Context (V : Type) (v0 : V) (U : udb) (cs : charset) (ws : wordset V) (M : models V).
  Hypothesis HW : ws_ok V ws.
  Hypothesis HM : models_ok V M.
  Context (st : list (ptags_mats V) -> list (ptags_mats V)) (sd : list (pdeps_mats V) -> list (pdeps_mats V)) (sr : list (trans_mats V) -> list (trans_mats V)).
  Hypothesis Pst : forall l, Permutation l (st l).
  Hypothesis Psd : forall l, Permutation l (sd l).
  Hypothesis Psr : forall l, Permutation l (sr l).
  Context (data : list (list token_tuple)).
  Context (dt : option (list (list (list nat)) * list (list (list V)) * list (list nat)))
    (dd : option (list (list nat) * list (list (list nat)) * list (list (list V)) * list (list nat)))
    (dr : option (list (list nat) * list (list nat) * list (list (list nat)) * list (list (list V)) * list (list bool) * list (list bool) * list nat)).
  Hypothesis Et : extract_ptags_training_data V v0 U cs ws st (map (map named) data) = Ok dt.
  Hypothesis Ed : extract_pdeps_training_data V v0 U cs ws sd (map (map named) data) = Ok dd.
  Hypothesis Er : extract_trans_training_data V v0 U cs ws sr (map (map named) data) = Ok dr.
  Hypothesis Lt : learned_tags V M dt.
  Hypothesis Ld : learned_deps V M dd.
  Hypothesis Lr : learned_trans V M dr.

  Lemma loaded ls tuples l : mapM make_labelled_named (map (map named) data) = Ok ls -> In tuples data -> make_labelled tuples = Ok l -> In l ls.
  Proof.
    intros E Hin El. destruct (mapM_In_out _ _ _ (map named tuples) E) as (l' & E' & Hl); [apply in_map; exact Hin|]. rewrite labelled_named in E'. congruence.
  Qed.
  Lemma tags_row tuples l d : In tuples data -> make_labelled tuples = Ok l -> vectorize_sentence V v0 U cs ws (l_tokens l) = Ok d ->
    ptags_model M (m_chars d) (m_words d) = tag_ids (l_tags l).
  Proof.
    intros Hin El Edd. unfold extract_ptags_training_data in Et. destruct (mapM make_labelled_named (map (map named) data)) as [ls|] eqn:E1; [|discriminate]. cbn [rbind] in Et.
    destruct (mapM (fun sent => ptags_sample V v0 U cs ws (l_tokens sent) (l_tags sent)) ls) as [rows|] eqn:E2; [|discriminate]. cbn [rbind] in Et. injection Et as <-.
    destruct (mapM_In_out _ _ _ l E2 (loaded _ _ _ E1 Hin El)) as (r & Er' & Hr). unfold ptags_sample in Er'. rewrite Edd in Er'. cbn [rbind] in Er'. injection Er' as <-.
    pose proof (Permutation_in _ (Pst rows) Hr) as Hs. destruct (In_nth_error _ _ Hs) as [i Ei]. destruct (columns3_at _ _ _ _ _ Ei) as (x & y & z & Ec & H1 & H2 & H3). eapply (Lt _ _ _ Ec i); eassumption.
  Qed.
  Lemma deps_row tuples l d : In tuples data -> make_labelled tuples = Ok l -> vectorize_sentence V v0 U cs ws (l_tokens l) = Ok d ->
    pdeps_model M (tag_ids (l_tags l)) (m_chars d) (m_words d) = dep_ids (l_deps l).
  Proof.
    intros Hin El Edd. unfold extract_pdeps_training_data in Ed. destruct (mapM make_labelled_named (map (map named) data)) as [ls|] eqn:E1; [|discriminate]. cbn [rbind] in Ed.
    destruct (mapM (fun sent => pdeps_sample V v0 U cs ws (l_tokens sent) (l_tags sent) (l_deps sent)) ls) as [rows|] eqn:E2; [|discriminate]. cbn [rbind] in Ed. injection Ed as <-.
    destruct (mapM_In_out _ _ _ l E2 (loaded _ _ _ E1 Hin El)) as (r & Er' & Hr). unfold pdeps_sample in Er'. rewrite Edd in Er'. cbn [rbind] in Er'. injection Er' as <-.
    pose proof (Permutation_in _ (Psd rows) Hr) as Hs. destruct (In_nth_error _ _ Hs) as [i Ei]. destruct (columns4_at _ _ _ _ _ _ Ei) as (x & y & z & u & Ec & H1 & H2 & H3 & H4). eapply (Ld _ _ _ _ Ec i); eassumption.
  Qed.
  Lemma trans_row tuples l d trs s b t masks : In tuples data -> make_labelled tuples = Ok l -> vectorize_sentence V v0 U cs ws (l_tokens l) = Ok d ->
    transitions l = Ok trs -> In (s, b, t) trs -> make_masks (s + 1) (b + 1) = Ok masks ->
    trans_model M (tag_ids (l_tags l)) (dep_ids (l_deps l)) (m_chars d) (m_words d) (fst masks) (snd masks) = trans_code t.
  Proof.
    intros Hin El Edd Etr Htr Em. unfold extract_trans_training_data in Er. destruct (mapM make_labelled_named (map (map named) data)) as [ls|] eqn:E1; [|discriminate]. cbn [rbind] in Er.
    match type of Er with (let! x := mapM ?f ls in _) = _ => destruct (mapM f ls) as [rowss|] eqn:E2; [|discriminate]; cbn [rbind] in Er; injection Er as <- end.
    destruct (mapM_In_out _ _ _ l E2 (loaded _ _ _ E1 Hin El)) as (rows & Er' & Hrows). rewrite Etr in Er'. cbn [rbind] in Er'.
    destruct (mapM_In_out _ _ _ _ Er' Htr) as (r & Er2 & Hr). cbn beta iota in Er2. unfold trans_sample in Er2. rewrite Edd in Er2. cbn [rbind] in Er2. rewrite Em in Er2. cbn [rbind] in Er2. injection Er2 as <-.
    assert (Hc : In (tag_ids (l_tags l), dep_ids (l_deps l), m_chars d, m_words d, fst masks, snd masks, trans_value t) (concat rowss)) by (apply in_concat; eauto).
    pose proof (Permutation_in _ (Psr (concat rowss)) Hc) as Hs. destruct (In_nth_error _ _ Hs) as [i Ei].     change (trans_code t) with (trans_value t).
    destruct (columns7_at _ _ _ _ _ _ _ _ _ Ei) as (x & y & z & u & v & w & k & Ec & H1 & H2 & H3 & H4 & H5 & H6 & H7). eapply (Lr _ _ _ _ _ _ _ Ec i); eassumption.
  Qed.

  Lemma mapM_decode {A} (decode : nat -> res A) (value : A -> nat) l : (forall a, decode (value a) = Ok a) -> mapM decode (map value l) = Ok l.
  Proof. intros H. induction l as [|a l IH]; [reflexivity|]. cbn [map mapM]. rewrite H. cbn [rbind]. rewrite IH. reflexivity. Qed.
  Lemma tag_value_lt t : tag_value t < 17. Proof. destruct t; cbn; lia. Qed.
  Lemma dep_value_lt t : dep_value t < 25. Proof. destruct t; cbn; lia. Qed.
  Lemma codes_row {A} (value : A -> nat) bound l : 0 < bound -> (forall a, value a < bound) -> length l <= 50 -> codes_ok bound (0 :: map value l ++ repeat 0 (51 - length l)).
  Proof.
    intros H0 H1 Hl. split; [cbn [length]; rewrite app_length, map_length, repeat_length; unfold PADDED_SENT_LENGTH, MAX_SENT_LENGTH; lia|]. constructor; [exact H0|].
    apply Forall_app. split; [apply Forall_forall; intros x Hx; apply in_map_iff in Hx; destruct Hx as (a & <- & _); apply H1|].
    apply Forall_forall. intros x Hx. apply repeat_spec in Hx. subst. exact H0.
  Qed.
  Lemma row_first {A} (value : A -> nat) l n : firstn (length l) (skipn 1 (0 :: map value l ++ repeat 0 n)) = map value l.
  Proof. cbn [skipn]. rewrite firstn_app, map_length, Nat.sub_diag, firstn_O, app_nil_r. rewrite <- (map_length value l) at 1. apply firstn_all. Qed.

  Lemma follows_predicted tc dc d p trs p' : follows p trs p' ->
    (forall s b t, In (s, b, t) trs -> s < 50 /\ b < 50) ->
    (forall s b t masks, In (s, b, t) trs -> make_masks (s + 1) (b + 1) = Ok masks -> trans_model M tc dc (m_chars d) (m_words d) (fst masks) (snd masks) = trans_code t) ->
    predicted_run V M tc dc d p (map snd trs) p'.
  Proof.
    induction 1 as [p|p s b t p1 l p2 Hs Hb Hr HF IH]; intros Hlt H; cbn [map]; [constructor|].
    assert (Hc : p_complete p = false) by (unfold buffer_first in Hb; unfold p_complete; destruct (p_buffer p); [discriminate|reflexivity]).
    econstructor; [exact Hc| |exact Hr|].
    - destruct (Hlt s b t (or_introl eq_refl)) as [H1 H2]. destruct (make_mask_hot (s + 1)) as (m1 & M1 & _); [lia|]. destruct (make_mask_hot (b + 1)) as (m2 & M2 & _); [lia|].
      exists s, b, (m1, m2). split; [exact Hs|]. split; [exact Hb|]. assert (Em : make_masks (s + 1) (b + 1) = Ok (m1, m2)) by (unfold make_masks; rewrite M1; cbn [rbind]; rewrite M2; reflexivity).
      split; [exact Em|]. exact (H s b t (m1, m2) (or_introl eq_refl) Em).
    - apply IH; [intros s' b' t' H'; apply (Hlt s' b' t'); right; exact H'|intros s' b' t' mk H'; apply (H s' b' t' mk); right; exact H'].
  Qed.

  Lemma learned_arcs tuples : In tuples data -> projective_tree tuples -> length tuples <= 50 ->
    exists tree, parsed V v0 U M cs ws (map tt_token tuples) (map tt_tag tuples) tree /\ labelled_tree tuples tree /\
      exists h, NoDup h /\ (forall a, In a h <-> In a (gold tuples)) /\ tree = match h with [] => None | _ => option_map (fun r => tree_of r h) (gold_root tuples) end.
  Proof.
    intros Hin HP Hl. destruct (make_labelled_ok tuples HP) as (r & tr & Ertok & Etr & El).
    destruct (vec_total V v0 U cs ws HW (map tt_token tuples)) as (d & Edd & Eln); [rewrite map_length; exact Hl|]. rewrite map_length in Eln.
    pose proof (tags_row tuples _ d Hin El Edd) as ET. cbn [l_tags] in ET. pose proof (deps_row tuples _ d Hin El Edd) as ED. cbn [l_tags l_deps] in ED.
    destruct (tag_ids_ok (map tt_tag tuples)) as [RT _]; [rewrite map_length; exact Hl|]. destruct (dep_ids_ok (map tt_dep tuples)) as [RD _]; [rewrite map_length; exact Hl|].
    assert (C1 : codes_ok 17 (tag_ids (map tt_tag tuples))) by (rewrite RT; apply codes_row; [lia|exact tag_value_lt|rewrite map_length; exact Hl]).
    assert (C2 : codes_ok 25 (dep_ids (map tt_dep tuples))) by (rewrite RD; apply codes_row; [lia|exact dep_value_lt|rewrite map_length; exact Hl]).
    destruct (init_parse_ok (length tuples) _ _ Hl C1 C2) as (p0 & Ep0 & Ets & Eds & Ln1 & Ln2 & Hi & Ea & _ & EW & ES).
    rewrite RT in Ets. rewrite RD in Eds.
    rewrite <- (map_length tt_tag tuples) in Ets at 1. rewrite <- (map_length tt_dep tuples) in Eds at 1.
    rewrite row_first, (mapM_decode _ _ _ tag_of_value) in Ets. rewrite row_first, (mapM_decode _ _ _ dep_of_value) in Eds. injection Ets as Ets. injection Eds as Eds.
    rewrite <- Eds in Hi, EW, ES.
    destruct (oracle_rebuilds tuples HP _ p0 El Hi (eq_sym Eds) Ea EW ES) as (trs & p & Etrs & Hf & Hc & Hdp & Hn & Ha).
    assert (HR : predicted_run V M (tag_ids (map tt_tag tuples)) (dep_ids (map tt_dep tuples)) d p0 (map snd trs) p).
    { apply follows_predicted; [exact Hf| |].
      - intros s b t Ht. destruct (transitions_total {| l_tokens := map tt_token tuples; l_tags := map tt_tag tuples; l_deps := map tt_dep tuples; l_tree := Some (tree_of r (gold tuples)) |}) as (trs' & E' & HF).
        rewrite Etrs in E'. injection E' as <-. rewrite Forall_forall in HF. specialize (HF _ Ht). cbn in HF. rewrite map_length in HF. lia.
      - intros s b t masks Ht Em. exact (trans_row tuples _ d trs s b t masks Hin El Edd Etrs Ht Em). }
    assert (Hrun : run p0 (map snd trs) p) by (eapply prun_run; exact HR).
    destruct (parse_of_inv (length tuples) p0 (map snd trs) p) as (Hip & Hd' & Ht' & _).
    { split; [exact Hl|]. exists (tag_ids (map tt_tag tuples)), (dep_ids (map tt_dep tuples)). auto. }
    { exact Hrun. }
    pose proof (build_tree_ok _ _ Hip) as Eb. exists (match p_root p with None => None | Some r => Some (tree_of r (p_arcs p)) end). split.
    - exists d, p0, (map snd trs), p. split; [exact Edd|]. cbv zeta. rewrite ET, ED. rewrite Eln. split; [exact Ep0|]. split; [exact HR|]. split; [exact Hc|]. split; [congruence|exact Eb].
    - split; [|exists (p_arcs p); split; [exact (NoDup_map_inv _ _ Hn)|]; split; [exact Ha|]].
      2:{ destruct (p_arcs p) as [|a0 A0] eqn:EA; [assert (p_root p = None) as -> by (apply p_root_None; [apply (c_acyclic _ _ _ _ (proj1 Hip))|exact EA]); reflexivity|].
          destruct (same_tree tuples HP (p_arcs p) r tr Ertok Etr) with (p := p) as [Hr _]; [rewrite EA; exact Ha|reflexivity|rewrite EA; discriminate|].
          rewrite Hr. unfold gold_root. rewrite (find_root tuples HP r tr Ertok Etr). reflexivity. }
      destruct (p_arcs p) as [|a0 A0] eqn:EA.
      + assert (p_root p = None) as -> by (apply p_root_None; [apply (c_acyclic _ _ _ _ (proj1 Hip))|exact EA]). intros a H. apply gold_In in H. apply Ha in H. destruct H.
      + destruct (same_tree tuples HP (p_arcs p) r tr Ertok Etr) with (p := p) as [Hr Hlr]; [rewrite EA; exact Ha|reflexivity|rewrite EA; discriminate|].
        rewrite Hr. cbn [labelled_tree]. rewrite tree_of_root. split; [eauto|]. rewrite <- EA in *. split; [|split].
        * intros lb h c. rewrite tree_parent, Hlr, <- gold_In. split; [apply last_reg_In|]. intros H. apply last_reg_unique; [|exact H]. intros l' p' H'. eapply G_fun; eauto.
        * intros lb h c. rewrite In_children_of, Ha. apply gold_In.
        * exists a0. apply gold_In. apply Ha. rewrite EA. left. reflexivity.
  Qed.
  Lemma learned_parsed tuples : In tuples data -> projective_tree tuples -> length tuples <= 50 ->
    exists tree, parsed V v0 U M cs ws (map tt_token tuples) (map tt_tag tuples) tree /\ labelled_tree tuples tree.
  Proof. intros H1 H2 H3. destruct (learned_arcs tuples H1 H2 H3) as (tree & K1 & K2 & _). eauto. Qed.
End Learned.
