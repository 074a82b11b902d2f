(** General lemmas about the Python vocabulary of PyBase.v. *)
From Coq Require Import Ascii String.
From Coq Require Import List NArith ZArith Arith Bool Lia Permutation Sorted.
From Verif Require Import PyBase.
Import ListNotations.
Local Open Scope nat_scope.

(** ** equality tests *)
Definition eqb_ok {A} (eqb : A -> A -> bool) := forall x y, eqb x y = true <-> x = y.

Lemma eqb_ok_refl {A} (eqb : A -> A -> bool) : eqb_ok eqb -> forall x, eqb x x = true.
Proof. intros H x; apply H; reflexivity. Qed.
Lemma eqb_ok_false {A} (eqb : A -> A -> bool) : eqb_ok eqb -> forall x y, eqb x y = false <-> x <> y.
Proof.
  intros H x y; split; intros E.
  - intros ->. rewrite (eqb_ok_refl _ H) in E. discriminate.
  - destruct (eqb x y) eqn:F; [apply H in F; contradiction | reflexivity].
Qed.
Lemma eqb_ok_reflect {A} (eqb : A -> A -> bool) : eqb_ok eqb -> forall x y, reflect (x = y) (eqb x y).
Proof. intros H x y. destruct (eqb x y) eqn:E; constructor; [apply H; exact E | apply (eqb_ok_false _ H); exact E]. Qed.

Lemma list_eqb_ok {A} (eqb : A -> A -> bool) : eqb_ok eqb -> eqb_ok (list_eqb eqb).
Proof.
  intros H l1; induction l1 as [|x l1 IH]; intros [|y l2]; simpl; split; intros E; try reflexivity; try discriminate.
  - apply andb_true_iff in E. destruct E as [E1 E2]. apply H in E1. apply IH in E2. subst. reflexivity.
  - injection E as -> ->. rewrite (eqb_ok_refl _ H). simpl. apply IH. reflexivity.
Qed.
Lemma Neqb_ok : eqb_ok N.eqb. Proof. intros x y; apply N.eqb_eq. Qed.
Lemma nateqb_ok : eqb_ok Nat.eqb. Proof. intros x y; apply Nat.eqb_eq. Qed.
Lemma str_eqb_ok : eqb_ok str_eqb. Proof. apply list_eqb_ok, Neqb_ok. Qed.
Lemma str_eqb_eq s t : str_eqb s t = true <-> s = t. Proof. apply str_eqb_ok. Qed.
Lemma str_eqb_refl s : str_eqb s s = true. Proof. apply str_eqb_ok; reflexivity. Qed.
Lemma str_eqb_neq s t : str_eqb s t = false <-> s <> t. Proof. apply (eqb_ok_false _ str_eqb_ok). Qed.
Lemma str_eq_dec (s t : str) : {s = t} + {s <> t}. Proof. apply list_eq_dec, N.eq_dec. Qed.

Lemma str_in_In s l : str_in s l = true <-> In s l.
Proof.
  unfold str_in. rewrite existsb_exists. split.
  - intros (x & Hx & E). apply str_eqb_eq in E. subst. exact Hx.
  - intros H. exists s. split; [exact H | apply str_eqb_refl].
Qed.

(** ** results *)
Lemma Forall2_len {A B} (R : A -> B -> Prop) l1 l2 : Forall2 R l1 l2 -> length l1 = length l2.
Proof. induction 1; simpl; congruence. Qed.
Lemma mapM_Ok_Forall2 {A B} (f : A -> res B) l ys :
  mapM f l = Ok ys <-> Forall2 (fun x y => f x = Ok y) l ys.
Proof.
  revert ys; induction l as [|x l IH]; simpl; intros ys.
  - split; intros H. { injection H as <-. constructor. } { inversion H. reflexivity. }
  - destruct (f x) as [y|e] eqn:E; simpl.
    + destruct (mapM f l) as [zs|e] eqn:E2; simpl; split; intros H.
      * injection H as <-. constructor; [exact E|]. apply IH. reflexivity.
      * inversion H; subst. rewrite E in H2. injection H2 as <-. apply IH in H4. injection H4 as <-. reflexivity.
      * discriminate.
      * inversion H; subst. apply IH in H4. discriminate.
    + split; intros H; [discriminate|]. inversion H; subst. rewrite E in H2. discriminate.
Qed.
Lemma mapM_ext_in {A B} (f g : A -> res B) l : (forall x, In x l -> f x = g x) -> mapM f l = mapM g l.
Proof.
  induction l as [|x l IH]; simpl; intros H; [reflexivity|].
  rewrite (H x) by auto. destruct (g x); simpl; [|reflexivity]. rewrite IH by auto. reflexivity.
Qed.
Lemma mapM_total {A B} (f : A -> res B) (g : A -> B) l : (forall x, In x l -> f x = Ok (g x)) -> mapM f l = Ok (map g l).
Proof.
  induction l as [|x l IH]; simpl; intros H; [reflexivity|].
  rewrite (H x) by auto. simpl. rewrite IH by auto. reflexivity.
Qed.
Lemma mapM_length {A B} (f : A -> res B) l ys : mapM f l = Ok ys -> length ys = length l.
Proof. intros H. apply mapM_Ok_Forall2 in H. symmetry. eapply Forall2_len; eauto. Qed.
Lemma mapM_app {A B} (f : A -> res B) l1 l2 :
  mapM f (l1 ++ l2) = let! a := mapM f l1 in let! b := mapM f l2 in Ok (a ++ b).
Proof.
  induction l1 as [|x l1 IH]; simpl.
  - destruct (mapM f l2); reflexivity.
  - destruct (f x); simpl; [|reflexivity]. rewrite IH. destruct (mapM f l1); simpl; [|reflexivity].
    destruct (mapM f l2); reflexivity.
Qed.
Lemma mapM_ok_all {A B} (f : A -> res B) l :
  is_ok (mapM f l) = true <-> forall x, In x l -> is_ok (f x) = true.
Proof.
  induction l as [|x l IH]; simpl.
  - split; [intros _ x []|reflexivity].
  - destruct (f x) eqn:E; simpl.
    + destruct (mapM f l) eqn:E2; simpl in *; split; intros H; try discriminate; try reflexivity.
      * intros y [<-|Hy]; [rewrite E; reflexivity|]. apply IH; auto.
      * apply IH. intros y Hy. apply H; auto.
    + split; intros H; [discriminate|]. specialize (H x (or_introl eq_refl)). rewrite E in H. discriminate.
Qed.
Lemma foldM_app {A S} (f : S -> A -> res S) s l1 l2 :
  foldM f s (l1 ++ l2) = let! s' := foldM f s l1 in foldM f s' l2.
Proof.
  revert s; induction l1 as [|x l1 IH]; simpl; intros s; [reflexivity|].
  destruct (f s x); simpl; [apply IH|reflexivity].
Qed.
Lemma rbind_Ok {A B} (r : res A) (f : A -> res B) b : rbind r f = Ok b -> exists a, r = Ok a /\ f a = Ok b.
Proof. destruct r; simpl; intros H; [eauto|discriminate]. Qed.

(** ** slices and indexing *)
Lemma clamp_nat len i : clamp (Z.of_nat len) (Z.of_nat i) = Nat.min len i.
Proof. unfold clamp. destruct (Z.ltb_spec (Z.of_nat i) 0); lia. Qed.

Lemma skipn_min {A} i (l : list A) : skipn (Nat.min (length l) i) l = skipn i l.
Proof.
  destruct (Nat.le_gt_cases i (length l)) as [H|H].
  - rewrite Nat.min_r by lia. reflexivity.
  - rewrite Nat.min_l by lia. rewrite !skipn_all2 by lia. reflexivity.
Qed.

Lemma slice_nat {A} (l : list A) i j :
  slice (Some (Z.of_nat i)) (Some (Z.of_nat j)) l = firstn (j - i) (skipn i l).
Proof.
  unfold slice. rewrite !clamp_nat. rewrite skipn_min.
  destruct (Nat.le_gt_cases i (length l)) as [H|H].
  - rewrite (Nat.min_r (length l) i) by lia.
    destruct (Nat.le_gt_cases j (length l)) as [H2|H2].
    + rewrite Nat.min_r by lia. reflexivity.
    + rewrite Nat.min_l by lia. rewrite !firstn_all2 by (rewrite skipn_length; lia). reflexivity.
  - rewrite skipn_all2 by lia. rewrite !firstn_nil. reflexivity.
Qed.
Lemma slice_from {A} (l : list A) i : slice (Some (Z.of_nat i)) None l = skipn i l.
Proof.
  unfold slice. rewrite clamp_nat, skipn_min. apply firstn_all2. rewrite skipn_length. lia.
Qed.
Lemma slice_to {A} (l : list A) j : slice None (Some (Z.of_nat j)) l = firstn j l.
Proof.
  unfold slice. rewrite clamp_nat. simpl. rewrite Nat.sub_0_r.
  destruct (Nat.le_gt_cases j (length l)); [rewrite Nat.min_r by lia; reflexivity|].
  rewrite Nat.min_l by lia. rewrite !firstn_all2 by lia. reflexivity.
Qed.
(** l[:-k] for 0 < k *)
Lemma slice_drop_last {A} (l : list A) k : 0 < k -> slice None (Some (- Z.of_nat k)%Z) l = firstn (length l - k) l.
Proof.
  intros Hk. unfold slice, clamp. simpl. rewrite Nat.sub_0_r.
  replace ((- Z.of_nat k <? 0)%Z) with true by (symmetry; apply Z.ltb_lt; lia).
  f_equal. lia.
Qed.
Lemma index_nat {A} (l : list A) i : index l (Z.of_nat i) = of_option IndexError (nth_error l i).
Proof.
  unfold index. replace ((Z.of_nat i <? 0)%Z) with false by (symmetry; apply Z.ltb_ge; lia).
  simpl. destruct (Z.leb_spec (Z.of_nat (length l)) (Z.of_nat i)) as [H|H].
  - rewrite orb_true_r. assert (nth_error l i = None) as -> by (apply nth_error_None; lia). reflexivity.
  - rewrite orb_false_r. replace ((Z.of_nat i <? 0)%Z) with false by (symmetry; apply Z.ltb_ge; lia).
    rewrite Nat2Z.id. reflexivity.
Qed.
(** l[-k] for 0 < k *)
Lemma index_neg {A} (l : list A) k : 0 < k ->
  index l (- Z.of_nat k)%Z = if (length l <? k)%nat then Err IndexError else of_option IndexError (nth_error l (length l - k)).
Proof.
  intros Hk. unfold index. replace ((- Z.of_nat k <? 0)%Z) with true by (symmetry; apply Z.ltb_lt; lia).
  destruct (Nat.ltb_spec (length l) k) as [H|H].
  - replace ((- Z.of_nat k + Z.of_nat (length l) <? 0)%Z) with true by (symmetry; apply Z.ltb_lt; lia). reflexivity.
  - replace ((- Z.of_nat k + Z.of_nat (length l) <? 0)%Z) with false by (symmetry; apply Z.ltb_ge; lia).
    replace ((Z.of_nat (length l) <=? - Z.of_nat k + Z.of_nat (length l))%Z) with false by (symmetry; apply Z.leb_gt; lia).
    simpl. f_equal. f_equal. lia.
Qed.

Lemma enum_from_length {A} n (l : list A) : length (enum_from n l) = length l.
Proof. revert n; induction l; simpl; intros; [reflexivity | f_equal; auto]. Qed.
Lemma enum_from_nth {A} n (l : list A) i : nth_error (enum_from n l) i = option_map (fun x => (n + i, x)) (nth_error l i).
Proof.
  revert n i; induction l as [|x l IH]; intros n i; destruct i; simpl; try reflexivity.
  - rewrite Nat.add_0_r. reflexivity.
  - rewrite IH. replace (S n + i) with (n + S i) by lia. reflexivity.
Qed.
Lemma enum_from_snd {A} n (l : list A) : map snd (enum_from n l) = l.
Proof. revert n; induction l; simpl; intros; [reflexivity|f_equal; auto]. Qed.
Lemma enum_from_fst {A} n (l : list A) : map fst (enum_from n l) = seq n (length l).
Proof. revert n; induction l; simpl; intros; [reflexivity|f_equal; auto]. Qed.
Lemma In_enum_from {A} n (l : list A) i x : In (i, x) (enum_from n l) <-> n <= i /\ nth_error l (i - n) = Some x.
Proof.
  split.
  - intros H. apply In_nth_error in H. destruct H as [k Hk]. rewrite enum_from_nth in Hk.
    destruct (nth_error l k) eqn:E; [|discriminate]. injection Hk as <- <-. split; [lia|].
    replace (n + k - n) with k by lia. exact E.
  - intros [H E]. apply (nth_error_In _ (i - n)). rewrite enum_from_nth, E. simpl. f_equal. f_equal. lia.
Qed.

(** ** dictionaries *)
Section DictLemmas.
  Context {K V : Type} (eqb : K -> K -> bool) (Heqb : eqb_ok eqb).
  Implicit Types (d : list (K * V)) (k : K).

  Lemma dget_dset_same k v d : dget eqb k (dset eqb k v d) = Some v.
  Proof.
    induction d as [|[k' v'] d IH]; simpl.
    - rewrite (eqb_ok_refl _ Heqb). reflexivity.
    - destruct (eqb k k') eqn:E; simpl; rewrite E; [reflexivity | exact IH].
  Qed.
  Lemma dget_dset_other k k' v d : k <> k' -> dget eqb k (dset eqb k' v d) = dget eqb k d.
  Proof.
    intros Hne. induction d as [|[k2 v2] d IH]; simpl.
    - apply (eqb_ok_false _ Heqb) in Hne. rewrite Hne. reflexivity.
    - destruct (eqb k' k2) eqn:E; simpl; destruct (eqb k k2) eqn:E2; try reflexivity.
      + apply Heqb in E, E2. congruence.
      + exact IH.
  Qed.
  Lemma dget_dset k k' v d : dget eqb k (dset eqb k' v d) = if eqb k k' then Some v else dget eqb k d.
  Proof.
    destruct (eqb k k') eqn:E.
    - apply Heqb in E. subst. apply dget_dset_same.
    - apply (eqb_ok_false _ Heqb) in E. apply dget_dset_other; exact E.
  Qed.
  Lemma dget_In k v d : dget eqb k d = Some v -> In (k, v) d.
  Proof.
    induction d as [|[k' v'] d IH]; simpl; [discriminate|].
    destruct (eqb k k') eqn:E; intros H.
    - apply Heqb in E. injection H as ->. left; congruence.
    - right; auto.
  Qed.
  Lemma dget_None k d : dget eqb k d = None <-> ~ In k (dkeys d).
  Proof.
    induction d as [|[k' v'] d IH]; simpl; [tauto|].
    destruct (eqb k k') eqn:E.
    - apply Heqb in E. subst. split; [discriminate|]. intros H. exfalso; apply H; auto.
    - rewrite IH. apply (eqb_ok_false _ Heqb) in E. split; intros H; [|tauto]. intros [F|F]; [congruence|auto].
  Qed.
  Lemma dget_Some_key k d : (exists v, dget eqb k d = Some v) <-> In k (dkeys d).
  Proof.
    destruct (dget eqb k d) eqn:E.
    - split; [|eauto]. intros _. apply dget_In in E. apply (in_map fst) in E. exact E.
    - split; [intros [v F]; discriminate|]. apply dget_None in E. contradiction.
  Qed.
  Lemma In_dget k v d : NoDup (dkeys d) -> In (k, v) d -> dget eqb k d = Some v.
  Proof.
    induction d as [|[k' v'] d IH]; simpl; [tauto|]. intros Hnd [H|H].
    - injection H as -> ->. rewrite (eqb_ok_refl _ Heqb). reflexivity.
    - inversion Hnd; subst. destruct (eqb k k') eqn:E; [|auto].
      apply Heqb in E. subst. exfalso. apply H2. apply (in_map fst) in H. exact H.
  Qed.
  Lemma dmem_In k d : dmem eqb k d = true <-> In k (dkeys d).
  Proof.
    unfold dmem. rewrite <- dget_Some_key. destruct (dget eqb k d).
    - split; eauto.
    - split; [discriminate|intros [v H]; discriminate].
  Qed.
  Lemma dkeys_dset k v d : dkeys (dset eqb k v d) = if dmem eqb k d then dkeys d else dkeys d ++ [k].
  Proof.
    unfold dmem. induction d as [|[k' v'] d IH]; simpl; [reflexivity|].
    destruct (eqb k k') eqn:E; simpl; [reflexivity|].
    change (map fst (dset eqb k v d)) with (dkeys (dset eqb k v d)). rewrite IH.
    destruct (dget eqb k d); reflexivity.
  Qed.
  Lemma dset_new k v d : dget eqb k d = None -> dset eqb k v d = d ++ [(k, v)].
  Proof.
    induction d as [|[k' v'] d IH]; simpl; [reflexivity|].
    destruct (eqb k k') eqn:E; [discriminate|]. intros H. rewrite IH by exact H. reflexivity.
  Qed.
  Lemma NoDup_dset k v d : NoDup (dkeys d) -> NoDup (dkeys (dset eqb k v d)).
  Proof.
    intros H. rewrite dkeys_dset. destruct (dmem eqb k d) eqn:E; [exact H|].
    assert (~ In k (dkeys d)) by (intros F; apply dmem_In in F; congruence).
    apply NoDup_Add with (a := k) (l := dkeys d); [|split; assumption].
    rewrite <- (app_nil_r (dkeys d)) at 1. apply Add_app.
  Qed.
  Lemma In_dset k v d k' v' : In (k', v') (dset eqb k v d) -> (k' = k /\ v' = v) \/ (In (k', v') d).
  Proof.
    induction d as [|[k2 v2] d IH]; simpl.
    - intros [H|[]]. injection H as <- <-. auto.
    - destruct (eqb k k2) eqn:E; simpl.
      + apply Heqb in E. subst. intros [H|H]; [injection H as <- <-; auto | auto].
      + intros [H|H]; [auto|]. destruct (IH H); auto.
  Qed.
  Lemma In_dkeys_dset k v d k' : In k' (dkeys (dset eqb k v d)) <-> k' = k \/ In k' (dkeys d).
  Proof.
    rewrite dkeys_dset. destruct (dmem eqb k d) eqn:E.
    - apply dmem_In in E. split; [auto|]. intros [->|H]; assumption.
    - rewrite in_app_iff. simpl. split; [intros [H|[H|[]]]; auto | intros [H|H]; auto].
  Qed.
End DictLemmas.

(** ** whitespace splitting *)
Lemma split_ws_aux_words sp cur s :
  Forall (fun c => sp c = false) cur ->
  Forall (fun t => t <> [] /\ Forall (fun c => sp c = false) t) (split_ws_aux sp cur s).
Proof.
  revert cur; induction s as [|c s IH]; simpl; intros cur Hc.
  - destruct cur as [|a cur]; [constructor|]. constructor; [|constructor]. split.
    + intros F; apply (f_equal (@length _)) in F; rewrite rev_length in F; discriminate.
    + apply Forall_rev; exact Hc.
  - destruct (sp c) eqn:E.
    + destruct cur as [|a cur]; [apply IH; constructor|]. constructor; [|apply IH; constructor]. split.
      * intros F; apply (f_equal (@length _)) in F; rewrite rev_length in F; discriminate.
      * apply Forall_rev; exact Hc.
    + apply IH. constructor; assumption.
Qed.
Lemma split_ws_words sp s : Forall (fun t => t <> [] /\ Forall (fun c => sp c = false) t) (split_ws sp s).
Proof. apply split_ws_aux_words. constructor. Qed.

(** The words of a text, as a relation: what str.split() returns. *)
Lemma split_ws_aux_app_word sp t cur s :
  Forall (fun c => sp c = false) t -> split_ws_aux sp cur (t ++ s) = split_ws_aux sp (rev t ++ cur) s.
Proof.
  revert cur; induction t as [|c t IH]; simpl; intros cur H; [reflexivity|].
  inversion H; subst. rewrite H2. rewrite IH by assumption. rewrite <- app_assoc. reflexivity.
Qed.
Lemma split_ws_cons_space sp c s : sp c = true -> split_ws sp (c :: s) = split_ws sp s.
Proof. intros H. unfold split_ws. simpl. rewrite H. reflexivity. Qed.
Lemma split_ws_word_space sp t c s :
  t <> [] -> Forall (fun c => sp c = false) t -> sp c = true -> split_ws sp (t ++ c :: s) = t :: split_ws sp s.
Proof.
  intros Hn Ht Hc. unfold split_ws. rewrite split_ws_aux_app_word by exact Ht. rewrite app_nil_r. simpl. rewrite Hc.
  destruct (rev t) as [|a r] eqn:E.
  - apply (f_equal (@rev _)) in E. rewrite rev_involutive in E. contradiction.
  - rewrite <- E, rev_involutive. reflexivity.
Qed.
Lemma split_ws_word sp t : t <> [] -> Forall (fun c => sp c = false) t -> split_ws sp t = [t].
Proof.
  intros Hn Ht. unfold split_ws. rewrite <- (app_nil_r t) at 1. rewrite split_ws_aux_app_word by exact Ht. rewrite app_nil_r.
  simpl. destruct (rev t) as [|a r] eqn:E.
  - apply (f_equal (@rev _)) in E. rewrite rev_involutive in E. contradiction.
  - rewrite <- E, rev_involutive. reflexivity.
Qed.
Lemma split_ws_aux_app_space sp cur s c s2 :
  sp c = true -> split_ws_aux sp cur (s ++ c :: s2) = split_ws_aux sp cur s ++ split_ws sp s2.
Proof.
  intros Hc. revert cur; induction s as [|a s IH]; simpl; intros cur.
  - rewrite Hc. destruct cur; reflexivity.
  - destruct (sp a); [|apply IH]. destruct cur; [apply IH|]. simpl. f_equal. apply IH.
Qed.
Lemma split_ws_app_space sp s c s2 : sp c = true -> split_ws sp (s ++ c :: s2) = split_ws sp s ++ split_ws sp s2.
Proof. apply split_ws_aux_app_space. Qed.
Lemma split_ws_join sp sep l :
  sp sep = true -> Forall (fun t => t <> [] /\ Forall (fun c => sp c = false) t) l ->
  split_ws sp (join [sep] l) = l.
Proof.
  intros Hs. induction l as [|t l IH]; intros H; [reflexivity|].
  inversion H as [|? ? [Hn Ht] Hl]; subst. simpl. destruct l as [|t2 l].
  - apply split_ws_word; assumption.
  - simpl. rewrite split_ws_word_space by assumption. f_equal. apply IH; assumption.
Qed.
Lemma split_ws_aux_concat sp cur s : concat (split_ws_aux sp cur s) = rev cur ++ filter (fun c => negb (sp c)) s.
Proof.
  revert cur; induction s as [|c s IH]; simpl; intros cur.
  - rewrite app_nil_r. destruct cur; simpl; [reflexivity|apply app_nil_r].
  - destruct (sp c) eqn:E; simpl.
    + destruct cur as [|a cur]; [apply IH|]. cbn [concat]. rewrite IH. reflexivity.
    + rewrite IH. simpl. rewrite <- app_assoc. reflexivity.
Qed.
Lemma split_ws_concat sp s : concat (split_ws sp s) = filter (fun c => negb (sp c)) s.
Proof. apply split_ws_aux_concat. Qed.

(** ** split on one character *)
Lemma split_chr_nonnil sep s : split_chr sep s <> [].
Proof. destruct s; simpl; [discriminate|]. destruct (N.eqb n sep); [discriminate|]. destruct (split_chr sep s); discriminate. Qed.
Lemma split_chr_app sep a b : ~ In sep a -> split_chr sep (a ++ sep :: b) = a :: split_chr sep b.
Proof.
  induction a as [|c a IH]; simpl; intros H.
  - rewrite N.eqb_refl. reflexivity.
  - destruct (N.eqb_spec c sep); [exfalso; apply H; auto|]. rewrite IH by tauto. reflexivity.
Qed.
Lemma split_chr_none sep a : ~ In sep a -> split_chr sep a = [a].
Proof.
  induction a as [|c a IH]; simpl; intros H; [reflexivity|].
  destruct (N.eqb_spec c sep); [exfalso; apply H; auto|]. rewrite IH by tauto. reflexivity.
Qed.
Lemma split_chr_join sep l : l <> [] -> Forall (fun t => ~ In sep t) l -> split_chr sep (join [sep] l) = l.
Proof.
  intros Hn. induction l as [|t l IH]; intros H; [contradiction|]. inversion H; subst.
  simpl. destruct l as [|t2 l]; [apply split_chr_none; assumption|].
  simpl. rewrite split_chr_app by assumption. f_equal. apply IH; [discriminate|assumption].
Qed.
Lemma join_split_chr sep s : join [sep] (split_chr sep s) = s.
Proof.
  induction s as [|c s IH]; [reflexivity|]. simpl. destruct (N.eqb_spec c sep) as [->|].
  - pose proof (split_chr_nonnil sep s) as Hn. destruct (split_chr sep s) as [|t l] eqn:E; [contradiction|].
    simpl. simpl in IH. f_equal. exact IH.
  - pose proof (split_chr_nonnil sep s) as Hn. destruct (split_chr sep s) as [|t l] eqn:E; [contradiction|].
    simpl in *. destruct l; simpl in *; f_equal; exact IH.
Qed.
Lemma split_chr_parts sep s : Forall (fun t => ~ In sep t) (split_chr sep s).
Proof.
  induction s as [|c s IH]; simpl; [constructor; [tauto|constructor]|].
  destruct (N.eqb_spec c sep).
  - constructor; [tauto|exact IH].
  - destruct (split_chr sep s) as [|t l]; [constructor; [|constructor]; simpl; intuition congruence|].
    inversion IH; subst. constructor; [|assumption]. simpl. intuition congruence.
Qed.

(** ** prefixes *)
Lemma strip_prefix_app p s : strip_prefix p (p ++ s) = Some s.
Proof. induction p; simpl; [reflexivity|]. rewrite N.eqb_refl. exact IHp. Qed.
Lemma strip_prefix_Some p s r : strip_prefix p s = Some r <-> s = p ++ r.
Proof.
  split.
  - revert s; induction p as [|a p IH]; intros s; simpl; [congruence|].
    destruct s as [|b s]; [discriminate|]. destruct (N.eqb_spec a b); [|discriminate]. intros H. f_equal; [congruence|auto].
  - intros ->. apply strip_prefix_app.
Qed.
Lemma startswith_iff s p : startswith s p = true <-> exists r, s = p ++ r.
Proof.
  unfold startswith. destruct (strip_prefix p s) eqn:E.
  - apply strip_prefix_Some in E. split; eauto.
  - split; [discriminate|]. intros [r ->]. rewrite strip_prefix_app in E. discriminate.
Qed.
Lemma endswith_iff s e : endswith s e = true <-> exists r, s = r ++ e.
Proof.
  unfold endswith. rewrite startswith_iff. split; intros [r H].
  - exists (rev r). apply (f_equal (@rev _)) in H. rewrite rev_app_distr, !rev_involutive in H. exact H.
  - exists (rev r). rewrite H. apply rev_app_distr.
Qed.

(** ** stable sorting *)
Section Sort.
  Context {A : Type} (le : A -> A -> bool).
  Lemma insert_perm x l : Permutation (x :: l) (insert le x l).
  Proof.
    induction l as [|y l IH]; simpl; [reflexivity|]. destruct (le x y); [reflexivity|].
    rewrite perm_swap. constructor. exact IH.
  Qed.
  Lemma isort_perm l : Permutation l (isort le l).
  Proof.
    induction l as [|x l IH]; simpl; [reflexivity|]. unfold isort in *. simpl.
    rewrite <- insert_perm. constructor. exact IH.
  Qed.
  Hypothesis le_total : forall x y, le x y = true \/ le y x = true.
  Hypothesis le_trans : forall x y z, le x y = true -> le y z = true -> le x z = true.
  Lemma insert_sorted x l : StronglySorted (fun a b => le a b = true) l -> StronglySorted (fun a b => le a b = true) (insert le x l).
  Proof.
    induction l as [|y l IH]; simpl; intros H; [constructor; constructor|].
    inversion H; subst. destruct (le x y) eqn:E.
    - constructor; [exact H|]. constructor; [exact E|]. eapply Forall_impl; [|exact H3]. intros z Hz. eapply le_trans; eauto.
    - constructor; [apply IH; assumption|].
      assert (le y x = true) by (destruct (le_total x y); congruence).
      rewrite Forall_forall in *. intros z Hz. apply (Permutation_in _ (Permutation_sym (insert_perm x l))) in Hz.
      destruct Hz as [<-|Hz]; auto.
  Qed.
  Lemma isort_sorted l : StronglySorted (fun a b => le a b = true) (isort le l).
  Proof. induction l; simpl; [constructor|]. apply insert_sorted. exact IHl. Qed.
  (** The head of the sorted list is the first minimal element. *)
  Lemma isort_head l x r :
    isort le l = x :: r ->
    exists l1 l2, l = l1 ++ x :: l2 /\ (forall y, In y l1 -> le y x = false) /\ (forall y, In y l -> le x y = true).
  Proof.
    revert x r; induction l as [|a l IH]; simpl; intros x r H; [discriminate|].
    change (fold_right (insert le) [] l) with (isort le l) in H.
    assert (forall z, le z z = true) as Hrefl by (intros z; destruct (le_total z z); assumption).
    destruct (isort le l) as [|y s] eqn:E; simpl in H.
    - injection H as <- <-. assert (l = []) as ->.
      { apply Permutation_nil. rewrite (isort_perm l), E. reflexivity. }
      exists [], []. simpl. repeat split; [tauto|]. intros z [<-|[]]. apply Hrefl.
    - destruct (IH y s eq_refl) as (l1 & l2 & Hl & H1 & H2).
      destruct (le a y) eqn:Ea; injection H as <- <-.
      + exists [], l. simpl. repeat split; [tauto|]. intros z [<-|Hz]; [apply Hrefl|]. eapply le_trans; eauto.
      + exists (a :: l1), l2. subst l. simpl. repeat split.
        * intros z [<-|Hz]; auto.
        * intros z [<-|Hz]; [destruct (le_total a y); congruence|auto].
  Qed.
End Sort.

(** ** small facts *)
Lemma flat_map_app_map {A B} (f : A -> list B) l : flat_map f l = concat (map f l).
Proof. apply flat_map_concat_map. Qed.
Lemma Forall2_nth_error {A B} (R : A -> B -> Prop) l1 l2 :
  Forall2 R l1 l2 -> forall i x, nth_error l1 i = Some x -> exists y, nth_error l2 i = Some y /\ R x y.
Proof.
  induction 1 as [|a b l1 l2 Hab H IH]; intros i x Hx; destruct i; simpl in *; try discriminate.
  - injection Hx as <-. eauto.
  - auto.
Qed.
Lemma nth_error_map_Some {A B} (f : A -> B) l i y : nth_error (map f l) i = Some y <-> exists x, nth_error l i = Some x /\ y = f x.
Proof.
  rewrite nth_error_map. destruct (nth_error l i); simpl; split.
  - intros H. injection H as <-. eauto.
  - intros (x & H & ->). congruence.
  - discriminate.
  - intros (x & H & _). discriminate.
Qed.
