(** The reader of SJson.v gets back what json.dumps (MWarn.v) has written. *)
From Coq Require Import Ascii String.
From Coq Require Import List NArith ZArith Arith Bool Lia.
From Verif Require Import PyBase Regex MUtils MBuilder MWarn SUtils SJson LBase LSave.
Import ListNotations.
Local Open Scope nat_scope.

Definition no_digit (s : str) : Prop := match s with c :: _ => is_digit c = false | [] => True end.

Lemma read_digits_ok ds : all_digits ds -> forall rest acc v, dec_value ds acc = Some v -> no_digit rest -> read_digits (ds ++ rest) acc = (v, rest).
Proof.
  induction 1 as [|c ds Hc Hd IH]; intros rest acc v E Hr.
  - cbn in E. injection E as ->. cbn. destruct rest as [|c r]; [reflexivity|]. cbn in Hr. cbn. rewrite Hr. reflexivity.
  - cbn [dec_value app read_digits] in *. assert (D : ((48 <=? c) && (c <=? 57))%N = true) by (apply andb_true_intro; split; apply N.leb_le; lia).
    unfold is_digit. rewrite D in *. apply IH; assumption.
Qed.
Lemma digits_head f : forall z, (0 < z < 10 ^ Z.of_nat f)%Z -> exists c ds, digits_Z f z = c :: ds /\ (49 <= c <= 57)%N.
Proof.
  induction f as [|f IH]; intros z Hz; [cbn in Hz; lia|]. cbn [digits_Z]. destruct (Z.ltb_spec z 10) as [H|H].
  - eexists; exists []. split; [reflexivity|]. lia.
  - destruct (IH (z / 10)%Z) as (c & ds & E & Hc).
    { rewrite Nat2Z.inj_succ, Z.pow_succ_r in Hz by lia. split; [apply Z.div_str_pos; lia|apply Z.div_lt_upper_bound; lia]. }
    rewrite E. cbn [app]. eauto.
Qed.
Lemma nat_repr z rest : (0 <= z)%Z -> no_digit rest -> read_nat (digits_Z (S (Z.to_nat (Z.log2_up (z + 1)))) z ++ rest) = Some (z, rest).
Proof.
  intros Hz Hr. pose proof (log_fuel z Hz) as HL. set (f := S (Z.to_nat (Z.log2_up (z + 1)))) in *.
  destruct (digits_Z_ok f z ltac:(lia) ltac:(unfold f; lia)) as (H1 & H2 & H3).
  destruct (Z.eq_dec z 0) as [->|Hn].
  - assert (E : digits_Z f 0 = [48%N]) by reflexivity. rewrite E. reflexivity.
  - destruct (digits_head f z ltac:(lia)) as (c & ds & E & Hc). rewrite E in *. unfold read_nat. cbn [app].
    destruct (N.eqb_spec c 48); [lia|]. assert (D : is_digit c = true) by (apply andb_true_intro; split; apply N.leb_le; lia). rewrite D.
    f_equal. apply (read_digits_ok (c :: ds)); assumption.
Qed.

Lemma hex_ok n : (n < 16)%N -> hex_val (hex_digit n) = Some n.
Proof.
  intros H. assert (K : In n [0;1;2;3;4;5;6;7;8;9;10;11;12;13;14;15]%N) by (cbn; lia).
  cbn in K. repeat (destruct K as [<-|K]; [reflexivity|]). destruct K.
Qed.
Lemma read_chars_ok s : forall rest, read_chars (flat_map escape s ++ 34%N :: rest) = Some (s, rest).
Proof.
  induction s as [|c s IH]; intros rest; [reflexivity|]. cbn [flat_map]. rewrite <- app_assoc. specialize (IH rest). revert IH.
  generalize (flat_map escape s ++ 34%N :: rest). intros t IH. unfold escape.
  repeat match goal with |- context [if N.eqb ?a ?b then _ else _] => is_var a; destruct (N.eqb_spec a b); [subst; cbn; rewrite IH; reflexivity|] end.
  destruct (N.ltb_spec c 32) as [H|H].
  - cbn [app read_chars]. cbn [N.eqb Pos.eqb]. rewrite !hex_ok; [|apply N.mod_lt; lia|apply N.div_lt_upper_bound; lia]. change (hex_val 48%N) with (Some 0%N). cbn iota. rewrite IH.
    do 2 f_equal. f_equal. pose proof (N.div_mod c 16 ltac:(lia)). lia.
  - cbn [app read_chars]. destruct (N.eqb_spec c 34); [contradiction|]. destruct (N.eqb_spec c 92); [contradiction|]. destruct (N.ltb_spec c 32); [lia|]. rewrite IH. reflexivity.
Qed.

Definition opener (c : char) : Prop := c = 34%N \/ c = 91%N \/ c = 123%N \/ c = 45%N \/ (48 <= c <= 57)%N.
Lemma int_head z : exists c r, int_repr z = c :: r /\ (c = 45%N \/ (48 <= c <= 57)%N).
Proof.
  unfold int_repr. destruct (digits_Z_ok (S (Z.to_nat (Z.log2_up (Z.abs z + 1)))) (Z.abs z)) as (_ & H2 & H3); [split; [lia|apply log_fuel; lia]|lia|].
  destruct (z <? 0)%Z; [eauto|]. destruct (digits_Z _ _) as [|c r]; [contradiction|]. inversion H3; subst. eauto.
Qed.
Lemma dumps_head v : exists c r, dumps v = c :: r /\ opener c.
Proof.
  unfold opener. destruct v as [z|s|l|l]; cbn [dumps]; [destruct (int_head z) as (c & r & E & H); exists c, r; intuition|eexists; eexists; (split; [reflexivity|]); auto..].
Qed.
Lemma skip_opener c s : opener c -> skip_ws (c :: s) = c :: s.
Proof.
  intros H. cbn. assert (E : is_ws c = false); [|rewrite E; reflexivity]. unfold is_ws, opener in *.
  destruct (N.eqb_spec c 32); [lia|]. destruct (N.eqb_spec c 9); [lia|]. destruct (N.eqb_spec c 10); [lia|]. destruct (N.eqb_spec c 13); [lia|]. reflexivity.
Qed.
Lemma read_int z f rest : no_digit rest -> read_value (S f) (int_repr z ++ rest) = Some (JInt z, rest).
Proof.
  intros Hr. destruct (int_head z) as (c & r & E & Hc). cbn [read_value]. rewrite E. cbn [app]. rewrite skip_opener by (unfold opener; intuition).
  destruct (N.eqb_spec c 34); [lia|]. destruct (N.eqb_spec c 91); [lia|]. destruct (N.eqb_spec c 123); [lia|].
  change (c :: (r ++ rest)) with ((c :: r) ++ rest). rewrite <- E. unfold int_repr in *. pose proof (nat_repr (Z.abs z) rest ltac:(lia) Hr) as HN.
  destruct (Z.ltb_spec z 0) as [Hz|Hz].
  - pose proof (f_equal (hd 0%N) E) as E1. pose proof (f_equal (@tl N) E) as E2. unfold hd in E1. unfold tl in E2. subst c r. cbn [N.eqb Pos.eqb]. rewrite HN. do 3 f_equal. lia.
  - destruct (N.eqb_spec c 45).
    + exfalso. destruct (digits_Z_ok (S (Z.to_nat (Z.log2_up (Z.abs z + 1)))) (Z.abs z)) as (_ & _ & H3); [split; [lia|apply log_fuel; lia]|lia|]. rewrite E in H3. inversion H3; subst. lia.
    + rewrite HN. do 3 f_equal. lia.
Qed.
Lemma after_opener c d s : opener c -> c <> d -> after d (c :: s) = None.
Proof. intros H Hn. unfold after. rewrite skip_opener by exact H. destruct (N.eqb_spec c d); [contradiction|reflexivity]. Qed.
Lemma read_space f s : read_value f (32%N :: s) = read_value f s.
Proof. destruct f; reflexivity. Qed.
Lemma items_space f s : read_items f (32%N :: s) = read_items f s.
Proof. destruct f; [reflexivity|]. cbn [read_items]. rewrite read_space. reflexivity. Qed.
Lemma members_space f s : read_members f (32%N :: s) = read_members f s.
Proof. destruct f; reflexivity. Qed.

Lemma value_list f s : read_value (S f) (91%N :: s) = match after 93%N s with Some r => Some (JList [], r) | None => match read_items f s with Some (l, r) => Some (JList l, r) | None => None end end.
Proof. reflexivity. Qed.
Lemma value_obj f s : read_value (S f) (123%N :: s) = match after 125%N s with Some r => Some (JObj [], r) | None => match read_members f s with Some (l, r) => Some (JObj l, r) | None => None end end.
Proof. reflexivity. Qed.
Lemma after_same c s : opener c \/ c = 93%N \/ c = 125%N \/ c = 44%N \/ c = 58%N -> after c (c :: s) = Some s.
Proof.
  intros H. unfold after. assert (E : is_ws c = false); [|cbn; rewrite E, N.eqb_refl; reflexivity]. unfold is_ws, opener in *.
  destruct (N.eqb_spec c 32); [lia|]. destruct (N.eqb_spec c 9); [lia|]. destruct (N.eqb_spec c 10); [lia|]. destruct (N.eqb_spec c 13); [lia|]. reflexivity.
Qed.
Lemma items_step f s v r : read_value f s = Some (v, r) -> read_items (S f) s =
  match after 93%N r, after 44%N r with Some r', _ => Some ([v], r') | None, Some r' => match read_items f r' with Some (l, r2) => Some (v :: l, r2) | None => None end | None, None => None end.
Proof. intros E. cbn [read_items]. rewrite E. reflexivity. Qed.
Lemma members_step f k s v r : read_value f s = Some (v, r) -> read_members (S f) (quote k ++ 58%N :: s) =
  match after 125%N r, after 44%N r with Some r', _ => Some ([(k, v)], r') | None, Some r' => match read_members f r' with Some (l, r2) => Some ((k, v) :: l, r2) | None => None end | None, None => None end.
Proof.
  intros E. unfold quote. rewrite <- !app_assoc. cbn [app read_members]. rewrite (after_same 34%N) by (left; left; reflexivity). rewrite read_chars_ok.
  rewrite (after_same 58%N) by auto. rewrite E. reflexivity.
Qed.

Definition member_text (m : str * json) : str := let '(k, x) := m in quote k ++ lit ": " ++ dumps x.
Definition comma : str := lit ", ".
Lemma join_cons2 (a b : str) l rest : join comma (a :: b :: l) ++ rest = a ++ 44%N :: 32%N :: (join comma (b :: l) ++ rest).
Proof. cbn [join]. rewrite <- !app_assoc. reflexivity. Qed.
Lemma join_len2 (a b : str) l : length (join comma (a :: b :: l)) = length a + 2 + length (join comma (b :: l)).
Proof. cbn [join]. rewrite !app_length. change (length comma) with 2. lia. Qed.
Lemma dumps_list l : dumps (JList l) = 91%N :: join comma (map dumps l) ++ [93%N].
Proof. reflexivity. Qed.
Lemma dumps_obj l : dumps (JObj l) = 123%N :: join comma (map member_text l) ++ [125%N].
Proof. reflexivity. Qed.
Lemma join_head (x : str) c r l : x = c :: r -> exists t, join comma (x :: l) = c :: t.
Proof. intros ->. destruct l; cbn; eauto. Qed.
Lemma member_len k v : length (dumps v) + 2 <= length (member_text (k, v)).
Proof. unfold member_text. rewrite !app_length. change (length (lit ": ")) with 2. lia. Qed.
Lemma member_app k v rest : member_text (k, v) ++ rest = quote k ++ 58%N :: 32%N :: (dumps v ++ rest).
Proof. unfold member_text. rewrite <- !app_assoc. reflexivity. Qed.
Lemma read_dumps : forall f,
  (forall v rest, 2 * length (dumps v) <= f -> no_digit rest -> read_value f (dumps v ++ rest) = Some (v, rest)) /\
  (forall l rest, l <> [] -> 2 * length (join comma (map dumps l)) + 1 <= f -> read_items f (join comma (map dumps l) ++ 93%N :: rest) = Some (l, rest)) /\
  (forall l rest, l <> [] -> 2 * length (join comma (map member_text l)) + 1 <= f -> read_members f (join comma (map member_text l) ++ 125%N :: rest) = Some (l, rest)).
Proof.
  induction f as [|f (IH1 & IH2 & IH3)].
  - split; [|split]; [intros v rest H; destruct (dumps_head v) as (c & r & E & _); rewrite E in H; cbn in H; lia|intros; lia|intros; lia].
  - split; [|split].
    + intros v rest Hf Hr. destruct v as [z|s|l|l].
      * apply read_int. exact Hr.
      * cbn [dumps]. unfold quote. rewrite <- !app_assoc. cbn [app read_value]. rewrite (skip_opener 34%N) by (left; reflexivity). cbn [N.eqb Pos.eqb]. rewrite read_chars_ok. reflexivity.
      * rewrite dumps_list in *. cbn [length] in Hf. rewrite app_length in Hf. cbn [length] in Hf. cbn [app]. rewrite <- app_assoc, value_list. cbn [app].
        destruct l as [|v l]; [reflexivity|]. destruct (dumps_head v) as (c & r & E & Hc). destruct (join_head _ c r (map dumps l) E) as (t & Et).
        cbn [map] in *. rewrite Et at 1. cbn [app]. rewrite (after_opener c 93%N) by (auto; unfold opener in Hc; lia). change (dumps v :: map dumps l) with (map dumps (v :: l)) in *.
        rewrite IH2; [reflexivity|discriminate|lia].
      * rewrite dumps_obj in *. cbn [length] in Hf. rewrite app_length in Hf. cbn [length] in Hf. cbn [app]. rewrite <- app_assoc, value_obj. cbn [app].
        destruct l as [|[k v] l]; [reflexivity|]. destruct (join_head (member_text (k, v)) 34%N _ (map member_text l) eq_refl) as (t & Et).
        cbn [map] in *. rewrite Et at 1. cbn [app]. rewrite (after_opener 34%N 125%N) by (try discriminate; left; reflexivity). change (member_text (k, v) :: map member_text l) with (map member_text ((k, v) :: l)) in *.
        rewrite IH3; [reflexivity|discriminate|lia].
    + intros l rest Hne Hf. destruct l as [|v [|w l]]; [contradiction| |].
      * cbn [map join] in *. rewrite (items_step f _ v (93%N :: rest)); [|apply IH1; [lia|reflexivity]]. rewrite after_same by auto. reflexivity.
      * cbn [map] in *. rewrite join_len2 in Hf. rewrite join_cons2.
        erewrite (items_step f _ v); [|apply IH1; [lia|reflexivity]]. change (after 93%N (44%N :: ?x)) with (@None str). rewrite after_same by auto. rewrite items_space.
        change (dumps w :: map dumps l) with (map dumps (w :: l)) in *. rewrite IH2; [reflexivity|discriminate|lia].
    + intros l rest Hne Hf. destruct l as [|[k v] [|[k' w] l]]; [contradiction| |].
      * cbn [map join] in *. pose proof (member_len k v). rewrite member_app. erewrite members_step; [|rewrite read_space; apply IH1; [lia|reflexivity]]. rewrite after_same by auto. reflexivity.
      * cbn [map] in *. pose proof (member_len k v). rewrite join_len2 in Hf. rewrite join_cons2, member_app.
        erewrite members_step; [|rewrite read_space; apply IH1; [lia|reflexivity]]. change (after 125%N (44%N :: ?x)) with (@None str). rewrite after_same by auto. rewrite members_space.
        change (member_text (k', w) :: map member_text l) with (map member_text ((k', w) :: l)) in *. rewrite IH3; [reflexivity|discriminate|lia].
Qed.
Lemma json_read_dumps v : json_read (dumps v) = Some v.
Proof.
  unfold json_read. destruct (read_dumps (2 * length (dumps v))) as (H & _ & _). specialize (H v [] ltac:(lia) I). rewrite app_nil_r in H. rewrite H. reflexivity.
Qed.
Lemma json_read_int z : json_read (int_repr z) = Some (JInt z).
Proof. exact (json_read_dumps (JInt z)). Qed.
