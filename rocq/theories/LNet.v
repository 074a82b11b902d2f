(** Proofs about the networks. *)
From Coq Require Import List NArith ZArith Arith Bool Lia.
From Verif Require Import PyBase Regex MUtils MTree MVector MParser LBase MBatch SBatch LBatch MNet SNet.
Import ListNotations.
Local Open Scope nat_scope.

Lemma firstn_plus {A} a b (l : list A) : firstn (a + b) l = firstn a l ++ firstn b (skipn a l).
Proof. revert l. induction a; intros l; [reflexivity|]. destruct l; cbn [Nat.add firstn skipn app]; [destruct b; reflexivity|]. rewrite IHa. reflexivity. Qed.
Lemma parts_concat {A} (l : list A) m : concat (map (fun k => part k l) (seq 0 m)) = firstn (32 * m) l.
Proof.
  induction m; [reflexivity|]. rewrite seq_S, map_app, concat_app, IHm. cbn [map concat]. rewrite app_nil_r, Nat.add_0_l.
  replace (32 * S m) with (32 * m + 32) by lia. rewrite firstn_plus. reflexivity.
Qed.
Lemma nb_parts_enough n : n <= 32 * nb_parts n.
Proof. unfold nb_parts. pose proof (Nat.div_mod (n + 31) 32 ltac:(lia)). pose proof (Nat.mod_upper_bound (n + 31) 32 ltac:(lia)). lia. Qed.
Lemma part_map {A B} (f : A -> B) k l : part k (map f l) = map f (part k l).
Proof. unfold part. rewrite skipn_map, firstn_map. reflexivity. Qed.
Lemma part_in {A} (P : A -> Prop) k l : Forall P l -> Forall P (part k l).
Proof.
  intros H. apply Forall_forall. intros x Hx. rewrite Forall_forall in H. apply H. unfold part in Hx.
  rewrite <- (firstn_skipn (32 * k) l). apply in_or_app. right. rewrite <- (firstn_skipn 32 (skipn _ l)). apply in_or_app. left. exact Hx.
Qed.
(** a network that answers the elements of a part one by one does so for the batch *)
Lemma keras_predict_ok {A B} (l : list A) (g : A -> B) model : l <> [] -> (forall k, model k = Ok (map g (part k l))) -> keras_predict (length l) model = Ok (map g l).
Proof.
  intros Hl HM. unfold keras_predict. destruct (length l) eqn:E; [destruct l; [easy|discriminate]|]. rewrite <- E.
  rewrite (mapM_total _ (fun k => map g (part k l))) by (intros; apply HM). cbn [rbind]. f_equal.
  rewrite <- (map_map (fun k => part k l) (map g)), <- concat_map, parts_concat, firstn_all2; [reflexivity|]. apply nb_parts_enough.
Qed.

Lemma map2M_ok {X A B C} (f : A -> B -> res C) (a : X -> A) (b : X -> B) (c : X -> C) l : (forall x, In x l -> f (a x) (b x) = Ok (c x)) ->
  map2M f (map a l) (map b l) = Ok (map c l).
Proof. induction l as [|x l IH]; intros H; [reflexivity|]. cbn [map map2M]. rewrite H by (left; reflexivity). cbn [rbind]. rewrite IH by (intros; apply H; right; assumption). reflexivity. Qed.
Lemma map2M_total {A B C} (f : A -> B -> C) a : forall b, length a = length b -> exists c, map2M (fun x y => Ok (f x y)) a b = Ok c /\ length c = length a.
Proof.
  induction a as [|x a IH]; intros [|y b] L; try discriminate; [exists []; split; reflexivity|]. cbn [map2M rbind]. destruct (IH b) as (c & E & Lc); [injection L; auto|].
  rewrite E. cbn [rbind]. eexists. split; [reflexivity|]. cbn. rewrite Lc. reflexivity.
Qed.
Lemma expect1_ok {A} n (t : list A) : length t = n -> expect1 n t = Ok t.
Proof. intros <-. unfold expect1. rewrite Nat.eqb_refl. reflexivity. Qed.
Lemma expect2_ok {A} rows cols (t : list (list A)) : length t = rows -> Forall (fun r => length r = cols) t -> expect2 rows cols t = Ok t.
Proof.
  intros <- H. unfold expect2. rewrite Nat.eqb_refl. replace (forallb _ t) with true; [reflexivity|]. symmetry. apply forallb_forall. intros r Hr.
  rewrite Forall_forall in H. apply Nat.eqb_eq. auto.
Qed.
Lemma rows_back {A} cols (L : list (list A)) : Forall (fun r => length r = cols) L ->
  map (fun i => firstn cols (skipn (i * cols) (concat L))) (seq 0 (length L)) = L.
Proof.
  induction 1 as [|r L Hr HL IH]; [reflexivity|]. cbn [length seq map concat]. f_equal.
  - cbn [Nat.mul skipn]. rewrite firstn_app, <- Hr, Nat.sub_diag, firstn_all. cbn. apply app_nil_r.
  - rewrite <- seq_shift, map_map, <- IH at 1. rewrite IH at 1. rewrite <- IH at 2. apply map_ext. intros i. f_equal. cbn [Nat.mul].
    rewrite skipn_app, skipn_all2 by lia. cbn [app]. f_equal. lia.
Qed.
Lemma concat_len {A} cols (L : list (list A)) : Forall (fun r => length r = cols) L -> length (concat L) = length L * cols.
Proof. induction 1 as [|r L Hr HL IH]; [reflexivity|]. cbn [concat length Nat.mul]. rewrite app_length, Hr, IH. reflexivity. Qed.
Lemma concat_concat_map {X A} (f : X -> list (list A)) l : concat (concat (map f l)) = concat (map (fun x => concat (f x)) l).
Proof. induction l as [|x l IH]; [reflexivity|]. cbn [map concat]. rewrite concat_app, IH. reflexivity. Qed.

Lemma mask_app {A} (a b : list A) m n : length a = length m -> map fst (filter snd (combine (a ++ b) (m ++ n))) = map fst (filter snd (combine a m)) ++ map fst (filter snd (combine b n)).
Proof.
  revert m. induction a as [|x a IH]; intros [|y m] L; try discriminate; [reflexivity|]. cbn [app combine filter snd]. injection L as L.
  destruct y; cbn [map fst app]; rewrite (IH m L); reflexivity.
Qed.
Lemma mask_falses {A} (a : list A) n : map fst (filter snd (combine a (repeat false n))) = [].
Proof. revert n. induction a; intros [|n]; cbn; auto. Qed.
Lemma mask_one {A} (a : list A) m : length a = 52 -> one_true m -> exists v, In v a /\ map fst (filter snd (combine a m)) = [v].
Proof.
  intros L (i & Hi & ->). destruct (nth_error a i) as [v|] eqn:E; [|apply nth_error_None in E; lia]. exists v. split; [eapply nth_error_In; eauto|].
  apply nth_error_split in E. destruct E as (a1 & a2 & -> & La). rewrite mask_app by (rewrite repeat_length; exact La). rewrite mask_falses.
  cbn [app combine filter snd map fst]. rewrite mask_falses. reflexivity.
Qed.
Lemma boolean_mask_ok {X A} (rows : X -> list A) (m : X -> list bool) (pick : X -> A) l :
  (forall x, In x l -> length (rows x) = 52 /\ one_true (m x) /\ boolean_mask [rows x] [m x] = [pick x]) -> boolean_mask (map rows l) (map m l) = map pick l.
Proof.
  unfold boolean_mask. induction l as [|x l IH]; intros H; [reflexivity|]. cbn [map concat].
  destruct (H x (or_introl eq_refl)) as (L & (i & Hi & Em) & E). rewrite mask_app. 2:{ rewrite L, Em, !app_length, !repeat_length. cbn [length]. lia. }
  cbn [concat] in E. rewrite !app_nil_r in E. rewrite E, IH by (intros; apply H; right; assumption). reflexivity.
Qed.

Section Net.
  Context (V F : Type) (cast : V -> F) (f0 : F) (feq : F -> F -> bool) (fmax : F -> F -> F) (relu : F -> F) (softmax : list F -> list F)
          (affine : list F -> list F -> F -> F) (State : Type).
  Hypothesis SM : forall l, length (softmax l) = length l.
  Let charm := char_model F f0 fmax relu affine State.
  Let pool := fun window d (row : list (list F)) => max_pool F fmax PADDED_WORD_LENGTH (conv F f0 relu affine window d row).

  Lemma max_of_len n l : forall best, length best = n -> Forall (fun v => length v = n) l -> length (max_of F fmax best l) = n.
  Proof.
    induction l as [|v l IH]; intros best Hb Hl; [exact Hb|]. inversion_clear Hl. cbn [max_of]. apply IH; [|assumption].
    rewrite map_length, combine_length. lia.
  Qed.
  Lemma pool_one window d row : length row = 22 -> length d = 128 -> exists v, pool window d row = [v] /\ length v = 128.
  Proof.
    intros Lr Ld. unfold pool. set (cv := conv F f0 relu affine window d row).
    assert (Lc : length cv = 22) by (unfold cv, conv; rewrite map_length, seq_length; exact Lr).
    assert (Hc : Forall (fun v => length v = 128) cv).
    { apply Forall_forall. intros v Hv. unfold cv, conv in Hv. apply in_map_iff in Hv. destruct Hv as (j & <- & _). rewrite map_length. unfold dense_call. rewrite map_length. exact Ld. }
    clearbody cv. unfold max_pool. rewrite Lc. change (22 / PADDED_WORD_LENGTH) with 1. cbn [seq map Nat.mul skipn].
    destruct cv as [|v cv]; [discriminate|]. change PADDED_WORD_LENGTH with 22. cbn [firstn]. eexists. split; [reflexivity|].
    inversion_clear Hc. apply max_of_len; [assumption|]. apply Forall_forall. intros u Hu. rewrite Forall_forall in H0. apply H0.
    rewrite <- (firstn_skipn 21 cv). apply in_or_app. left. exact Hu.
  Qed.
  (** the features of a word: the maxima of its four convolutions *)
  Definition word_features (w : weights F State) (codes : list nat) : list F :=
    concat (map (fun '(window, d) => concat (pool window d (map (fun c => nth c (w_chars w) []) codes))) (combine [2; 3; 4; 5] (w_convs w))).
  Lemma char_model_ok n out w c : sized n out w -> char_matrix n c -> charm w c = Ok (map (word_features w) c).
  Proof.
    intros Z [Lc Hc]. unfold charm, char_model. rewrite expect2_ok by (first [exact Lc|eapply Forall_impl; [|exact Hc]; intros r [H _]; exact H]). cbn [rbind].
    set (look := fun x => nth x (w_chars w) []).
    assert (EM : mapM (mapM (embed F (w_chars w))) c = Ok (map (map look) c)).
    { apply mapM_total. intros r Hr. apply mapM_total. intros x Hx. unfold embed. rewrite Forall_forall in Hc. destruct (Hc r Hr) as [_ H]. rewrite Forall_forall in H.
      specialize (H x Hx). rewrite (nth_error_nth' _ [] (n := x)); [reflexivity|]. rewrite (z_chars _ _ _ Z). exact H. }
    rewrite EM. cbn [rbind]. assert (ZC := z_convs _ _ _ Z). unfold word_features. destruct (w_convs w) as [|d1 [|d2 [|d3 [|d4 [|]]]]]; try discriminate.
    cbn [map] in ZC. injection ZC as Z1 Z2 Z3 Z4.
    cbn [combine map foldM]. rewrite !map_map.
    rewrite (map2M_ok _ _ _ (fun r => pool 2 d1 (map look r) ++ pool 3 d2 (map look r))) by reflexivity. cbn [rbind].
    rewrite (map2M_ok _ _ _ (fun r => (pool 2 d1 (map look r) ++ pool 3 d2 (map look r)) ++ pool 4 d3 (map look r))) by reflexivity. cbn [rbind].
    rewrite (map2M_ok _ _ _ (fun r => ((pool 2 d1 (map look r) ++ pool 3 d2 (map look r)) ++ pool 4 d3 (map look r)) ++ pool 5 d4 (map look r))) by reflexivity. cbn [rbind].
    unfold reshape. rewrite concat_concat_map.
    match goal with |- context [map ?h c] => set (L := map h c) end.
    assert (HL : Forall (fun r => length r = 128 * 4) L).
    { unfold L. apply Forall_forall. intros r Hr. apply in_map_iff in Hr. destruct Hr as (row & <- & Hr). rewrite Forall_forall in Hc. destruct (Hc row Hr) as [Lr _].
      assert (Lm : length (map look row) = 22) by (rewrite map_length; exact Lr).
      destruct (pool_one 2 d1 _ Lm Z1) as (v1 & -> & L1). destruct (pool_one 3 d2 _ Lm Z2) as (v2 & -> & L2).
      destruct (pool_one 4 d3 _ Lm Z3) as (v3 & -> & L3). destruct (pool_one 5 d4 _ Lm Z4) as (v4 & -> & L4).
      cbn [app concat]. rewrite !app_length, L1, L2, L3, L4. reflexivity. }
    assert (LL : length L = PADDED_SENT_LENGTH) by (unfold L; rewrite map_length; exact Lc).
    rewrite (concat_len (128 * 4) L HL), LL, Nat.eqb_refl. rewrite <- LL at 1. rewrite rows_back by exact HL. f_equal. unfold L. apply map_ext. intros row.
    rewrite !concat_app. cbn [concat]. rewrite app_nil_r, <- !app_assoc. reflexivity.
  Qed.
  Lemma word_inputs_ok ws : word_matrix ws -> word_inputs V F cast ws = Ok (map (map cast) ws).
  Proof. intros [L H]. unfold word_inputs. rewrite expect2_ok by assumption. reflexivity. Qed.
  Lemma embed_all_ok table n t : length table = n -> code_row n t -> exists r, embed_all F table t = Ok r /\ length r = 52.
  Proof.
    intros Lt [L H]. unfold embed_all. rewrite expect1_ok by exact L. cbn [rbind].
    rewrite (mapM_total _ (fun x => nth x table [])); [eexists; split; [reflexivity|rewrite map_length; exact L]|].
    intros x Hx. unfold embed. rewrite Forall_forall in H. rewrite (nth_error_nth' _ [] (n := x)); [reflexivity|]. rewrite Lt. auto.
  Qed.
  Lemma lstm_run_len l xs : forall s p, length (lstm_run F State l s p xs) = length xs.
  Proof. induction xs as [|[x [|]] xs IH]; intros s p; cbn; [reflexivity| |]; rewrite IH; reflexivity. Qed.
  Lemma bilstm_len w rows : length (bilstm F f0 feq State w rows) = length rows.
  Proof.
    unfold bilstm, lstm_call. rewrite map_length, combine_length, rev_length, !lstm_run_len, rev_length, map_length. lia.
  Qed.
  Lemma classes_len n out w h : sized n out w -> length (classes F softmax affine State w h) = out.
  Proof. intros Z. unfold classes, dense_call. rewrite SM, map_length. apply (z_out _ _ _ Z). Qed.
  Lemma beside_ok a b : length a = 52 -> length b = 52 -> exists c, beside F a b = Ok c /\ length c = 52.
  Proof. intros La Lb. unfold beside. destruct (map2M_total (@app F) a b) as (c & E & L); [congruence|]. exists c. split; [exact E|congruence]. Qed.
  Lemma rows_classes n out w rows : sized n out w -> length rows = 52 ->
    length (map (classes F softmax affine State w) (bilstm F f0 feq State w rows)) = 52 /\ Forall (fun r => length r = out) (map (classes F softmax affine State w) (bilstm F f0 feq State w rows)).
  Proof.
    intros Z L. split; [rewrite map_length, bilstm_len; exact L|]. apply Forall_forall. intros r Hr. apply in_map_iff in Hr. destruct Hr as (h & <- & _). eapply classes_len; eauto.
  Qed.

  Let tags1 := tags_one V F cast f0 feq fmax relu softmax affine State.
  Let deps1 := deps_one V F cast f0 feq fmax relu softmax affine State.
  Let states1 := trans_states V F cast f0 feq fmax relu affine State.
  Lemma tags_one_ok n w c v : sized n 17 w -> char_matrix n c -> word_matrix v -> exists r, tags1 w c v = Ok r /\ length r = 52 /\ Forall (fun x => length x = 17) r.
  Proof.
    intros Z Hc Hv. unfold tags1, tags_one. fold charm. rewrite (char_model_ok n 17 w c Z Hc), (word_inputs_ok v Hv). cbn [rbind].
    destruct (beside_ok (map (word_features w) c) (map (map cast) v)) as (r & -> & L); try (rewrite map_length; first [apply Hc|apply Hv]). cbn [rbind].
    eexists. split; [reflexivity|]. eapply rows_classes; eauto.
  Qed.
  Lemma deps_one_ok n w t c v : sized n 25 w -> code_row 17 t -> char_matrix n c -> word_matrix v ->
    exists r, deps1 w t c v = Ok r /\ length r = 52 /\ Forall (fun x => length x = 25) r.
  Proof.
    intros Z Ht Hc Hv. unfold deps1, deps_one. fold charm. rewrite (char_model_ok n 25 w c Z Hc), (word_inputs_ok v Hv). cbn [rbind].
    destruct (embed_all_ok (w_tags w) 17 t (z_tags _ _ _ Z) Ht) as (et & -> & Lt). cbn [rbind].
    destruct (beside_ok (map (word_features w) c) (map (map cast) v)) as (r & -> & L); try (rewrite map_length; first [apply Hc|apply Hv]). cbn [rbind].
    destruct (beside_ok r et L Lt) as (r' & -> & L'). cbn [rbind]. eexists. split; [reflexivity|]. eapply rows_classes; eauto.
  Qed.
  Lemma trans_states_ok n w t d c v : sized n 4 w -> code_row 17 t -> code_row 25 d -> char_matrix n c -> word_matrix v ->
    exists r, states1 w t d c v = Ok r /\ length r = 52.
  Proof.
    intros Z Ht Hd Hc Hv. unfold states1, trans_states. fold charm. rewrite (char_model_ok n 4 w c Z Hc), (word_inputs_ok v Hv). cbn [rbind].
    destruct (embed_all_ok (w_tags w) 17 t (z_tags _ _ _ Z) Ht) as (et & -> & Lt). destruct (embed_all_ok (w_deps w) 25 d (z_deps _ _ _ Z) Hd) as (ed & -> & Ld). cbn [rbind].
    destruct (beside_ok (map (word_features w) c) (map (map cast) v)) as (r & -> & L); try (rewrite map_length; first [apply Hc|apply Hv]). cbn [rbind].
    destruct (beside_ok r et L Lt) as (r' & -> & L'). cbn [rbind]. destruct (beside_ok r' ed L' Ld) as (r2 & -> & L2). cbn [rbind].
    eexists. split; [reflexivity|]. rewrite bilstm_len. exact L2.
  Qed.

  (** the answer for one sentence, or zeros of the right shape *)
  Definition shaped (out : nat) (r : res (list (list F))) : list (list F) :=
    match r with
    | Ok x => if (length x =? 52) && forallb (fun y => length y =? out) x then x else repeat (repeat f0 out) 52
    | Err _ => repeat (repeat f0 out) 52
    end.
  Lemma shaped_ok out r : length (shaped out r) = 52 /\ Forall (fun y => length y = out) (shaped out r).
  Proof.
    assert (D : length (repeat (repeat f0 out) 52) = 52 /\ Forall (fun y => length y = out) (repeat (repeat f0 out) 52)).
    { split; [apply repeat_length|]. apply Forall_forall. intros y Hy. apply repeat_spec in Hy. subst y. apply repeat_length. }
    unfold shaped. destruct r as [x|e]; [|exact D]. destruct (_ && _) eqn:E; [|exact D]. apply andb_true_iff in E. destruct E as [E1 E2]. apply Nat.eqb_eq in E1.
    split; [exact E1|]. apply Forall_forall. intros y Hy. rewrite forallb_forall in E2. apply Nat.eqb_eq. auto.
  Qed.
  Lemma shaped_id out x : length x = 52 -> Forall (fun y => length y = out) x -> shaped out (Ok x) = x.
  Proof.
    intros L H. unfold shaped. rewrite L. replace (forallb _ x) with true; [reflexivity|]. symmetry. apply forallb_forall. intros y Hy. rewrite Forall_forall in H.
    apply Nat.eqb_eq. auto.
  Qed.
  Definition the_states (r : res (list (list F))) : list (list F) := match r with Ok x => x | Err _ => [] end.
  Definition picked_state (rows : list (list F)) (m : list bool) : list F := hd [] (boolean_mask [rows] [m]).
  Context (n : nat) (wt wd wr : weights F State).
  Definition library_one : sentence_networks V F := {|
    one_tags := fun c v => shaped 17 (tags1 wt c v);
    one_deps := fun t c v => shaped 25 (deps1 wd t c v);
    one_trans := fun t d c v m1 m2 =>
      let rows := the_states (states1 wr t d c v) in
      classes F softmax affine State wr (map relu (dense_call F affine (w_mlp wr) (picked_state rows m1 ++ picked_state rows m2)))
  |}.
  Hypothesis (Zt : sized n 17 wt) (Zd : sized n 25 wd) (Zr : sized n 4 wr).
  Lemma library_shapes : shapes_ok V F library_one.
  Proof. constructor; intros; cbn; try apply shaped_ok. eapply classes_len; eauto. Qed.
  Lemma library_rowwise : rowwise V F n (library_networks V F cast f0 feq fmax relu softmax affine State wt wd wr) library_one.
  Proof.
    constructor; intros l Hl HF; cbn [net_tags net_deps net_trans library_networks one_tags one_deps one_trans library_one].
    - rewrite map_length. apply keras_predict_ok; [exact Hl|]. intros k. rewrite !part_map. apply (part_in _ k) in HF. generalize dependent (part k l). clear l Hl. intros l HF.
      unfold tags_part. apply map2M_ok. intros [c v] Hx. rewrite Forall_forall in HF. destruct (HF _ Hx) as [Hc Hv]. cbn [fst snd]. fold tags1.
      destruct (tags_one_ok n wt c v Zt Hc Hv) as (r & E & L & H). rewrite E, shaped_id by assumption. reflexivity.
    - rewrite map_length. apply keras_predict_ok; [exact Hl|]. intros k. rewrite !part_map. apply (part_in _ k) in HF. generalize dependent (part k l). clear l Hl. intros l HF.
      unfold deps_part. rewrite (map2M_ok _ _ _ (fun '(t, c, _) => (t, c))) by (intros [[t c] v] _; reflexivity). cbn [rbind].
      apply map2M_ok. intros [[t c] v] Hx. rewrite Forall_forall in HF. destruct (HF _ Hx) as (Ht & Hc & Hv). fold deps1.
      destruct (deps_one_ok n wd t c v Zd Ht Hc Hv) as (r & E & L & H). rewrite E, shaped_id by assumption. reflexivity.
    - rewrite map_length. apply keras_predict_ok; [exact Hl|]. intros k. rewrite !part_map. apply (part_in _ k) in HF. generalize dependent (part k l). clear l Hl. intros l HF.
      rewrite Forall_forall in HF. unfold trans_part.
      rewrite (map2M_ok _ _ _ (fun '(t, d, _, _, _, _) => (t, d))) by (intros [[[[[t d] c] v] m1] m2] _; reflexivity). cbn [rbind].
      rewrite (map2M_ok _ _ _ (fun '(_, _, c, v, _, _) => (c, v))) by (intros [[[[[t d] c] v] m1] m2] _; reflexivity). cbn [rbind].
      rewrite (map2M_ok _ _ _ (fun '(t, d, c, v, _, _) => the_states (states1 wr t d c v))).
      2:{ intros [[[[[t d] c] v] m1] m2] Hx. destruct (HF _ Hx) as (Ht & Hd & Hc & Hv & _). fold states1. destruct (trans_states_ok n wr t d c v Zr Ht Hd Hc Hv) as (r & E & _). rewrite E. reflexivity. }
      cbn [rbind].
      assert (ME : forall f : _ -> list bool, (forall x, In x l -> one_true (f x)) -> mapM (expect1 PADDED_SENT_LENGTH) (map f l) = Ok (map f l)).
      { intros f Hf. rewrite mapM_map. apply mapM_total. intros x Hx. apply expect1_ok. destruct (Hf x Hx) as (i & Hi & ->). rewrite !app_length, !repeat_length. change PADDED_SENT_LENGTH with 52. cbn [length]. lia. }
      rewrite !ME by (intros [[[[[t d] c] v] m1] m2] Hx; apply (HF _ Hx)). cbn [rbind].
      assert (PK : forall rows m, length rows = 52 -> one_true m -> boolean_mask [rows] [m] = [picked_state rows m]).
      { intros rows m L Hm. unfold picked_state, boolean_mask. cbn [concat]. rewrite !app_nil_r. destruct (mask_one rows m L Hm) as (v & _ & ->). reflexivity. }
      rewrite (boolean_mask_ok _ _ (fun '(t, d, c, v, m1, m2) => picked_state (the_states (states1 wr t d c v)) m1)).
      2:{ intros [[[[[t d] c] v] m1] m2] Hx. destruct (HF _ Hx) as (Ht & Hd & Hc & Hv & H1 & H2). destruct (trans_states_ok n wr t d c v Zr Ht Hd Hc Hv) as (r & E & L).
          rewrite E. split; [exact L|]. split; [exact H1|]. apply PK; assumption. }
      rewrite (boolean_mask_ok _ _ (fun '(t, d, c, v, m1, m2) => picked_state (the_states (states1 wr t d c v)) m2)).
      2:{ intros [[[[[t d] c] v] m1] m2] Hx. destruct (HF _ Hx) as (Ht & Hd & Hc & Hv & H1 & H2). destruct (trans_states_ok n wr t d c v Zr Ht Hd Hc Hv) as (r & E & L).
          rewrite E. split; [exact L|]. split; [exact H2|]. apply PK; assumption. }
      unfold beside. rewrite (map2M_ok _ _ _ (fun '(t, d, c, v, m1, m2) => picked_state (the_states (states1 wr t d c v)) m1 ++ picked_state (the_states (states1 wr t d c v)) m2)).
      2:{ intros [[[[[t d] c] v] m1] m2] Hx. reflexivity. }
      cbn [rbind]. rewrite map_map. f_equal. apply map_ext. intros [[[[[t d] c] v] m1] m2]. reflexivity.
  Qed.
End Net.
