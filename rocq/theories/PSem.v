(** Properties C59-C62, C74: semantic tuples. The relations [tuple_of], [grammar], [about], [word_from] are in SSem.v. *)
From Coq Require Import Ascii String.
From Coq Require Import List NArith ZArith Arith Bool Lia.
From Verif Require Import PyBase Regex MUtils MTree MNormal MNode MSem SUtils STree SNode SArgs SSem LBase LText LTree LUdb LNode LNode3 LArgs LArgs2 PNode2 PArgs LSem.
Import ListNotations.
Local Open Scope nat_scope.

(** * C74 *)
Theorem C74_exact_tuples : forall H R past_participle pp nodes, (forall l, past_participle l = Ok (pp l)) ->
  exists tuples, extract H R past_participle nodes = Ok tuples /\ forall t, In t tuples <-> tuple_of H R pp nodes t.
Proof. intros H R pf pp nodes Hpp. exact (extract_ok H R pf pp nodes Hpp). Qed.

(** * C59 *)
Lemma ncode_noun H r : In (lit (ncode H r)) noun_codes.
Proof. unfold ncode. destruct (n_tag (H r)); cbv; auto 10. Qed.
Lemma acode_attr H r : In (lit (acode H r)) attr_codes.
Proof. unfold acode. destruct (n_active (H r)) as [[|]|]; cbv; auto 10. Qed.
Lemma noun_attr c : In c noun_codes -> In c attr_codes.
Proof. unfold noun_codes, attr_codes. cbn [map In]. intuition auto 10. Qed.
Lemma pcode_attr H r : In (lit (pcode H r)) attr_codes.
Proof. unfold pcode. destruct (n_tag (H r)); try (apply noun_attr, ncode_noun). apply acode_attr. Qed.
Theorem C59_grammar : forall H R past_participle pp nodes, (forall l, past_participle l = Ok (pp l)) ->
  exists tuples, extract H R past_participle nodes = Ok tuples /\ Forall (fun t => grammar (map a_code t)) tuples.
Proof.
  intros H R pf pp nodes Hpp. destruct (C74_exact_tuples H R pf pp nodes Hpp) as (l & E & Hl). exists l. split; [exact E|].
  apply Forall_forall. intros t Ht. apply Hl in Ht. destruct Ht; cbn [map a_code narg arg]; constructor; try apply ncode_noun; try apply pcode_attr; try apply acode_attr.
  cbv. auto 10.
Qed.

(** * C60 *)
Lemma even_singles R l : even_groups R (map (fun x => [x]) l) = even_neg R l.
Proof.
  unfold even_groups, even_neg. f_equal. induction l as [|x l IH]; [reflexivity|]. cbn [map filter group_negative forallb]. rewrite andb_true_r.
  destruct (negative R x); cbn [length]; rewrite IH; reflexivity.
Qed.
Lemma even_perm2 R a b : even_neg R [a; b] = even_neg R [b; a].
Proof. unfold even_neg. cbn [filter]. destruct (negative R a), (negative R b); reflexivity. Qed.
(** Only the second argument can be negative, and it is negative exactly when an odd number of the groups of nodes involved are
    negative. The groups are single nodes, but for the subjects of a passive form. A node counts as often as it is listed: see
    the refutation below for the clauses without a subject of their own. *)
Theorem C60_negation_partial : forall H R past_participle pp nodes tuples, (forall l, past_participle l = Ok (pp l)) ->
  extract H R past_participle nodes = Ok tuples ->
  forall t, In t tuples -> exists a v rest groups, t = a :: v :: rest /\ a_aff a = true /\ Forall (fun x => a_aff x = true) rest /\
    about H R pp groups (a_aff v) t /\ a_aff v = even_groups R groups.
Proof.
  intros H R pf pp nodes tuples Hpp E t Ht. destruct (C74_exact_tuples H R pf pp nodes Hpp) as (l & E' & Hl). rewrite E in E'. injection E' as ->. apply Hl in Ht.
  destruct Ht; do 3 eexists.
  1: exists (map (fun x => [x]) [s; v; s2; o]).
  2: exists (map (fun x => [x]) [s; v; s2; o; o2]).
  3: exists (map (fun x => [x]) [s; v; s2; o; p]).
  4: exists (map (fun x => [x]) [s; v]).
  5: exists (map (fun x => [x]) [s; v; o]).
  6: exists (map (fun x => [x]) [s; v; io]).
  7: exists [r_list (R v) A_subjs; [v]; [o]].
  8: exists [match s with Some x => [x] | None => [] end; [v]; [n]; [p]].
  9: exists (map (fun x => [x]) [n; c; p]).
  10: exists (map (fun x => [x]) [a; p; n]).
  11: exists (map (fun x => [x]) [n; x; p]).
  12: exists (map (fun x => [x]) [n; a]).
  13: exists (map (fun x => [x]) [a; p; n]).
  all: (split; [reflexivity|]); (split; [reflexivity|]); (split; [repeat constructor|]); cbn [a_aff arg].
  all: try rewrite even_singles.
  all: split; [|try reflexivity; try apply even_perm2].
  all: try (constructor; assumption).
  - unfold even_groups. cbn [filter]. replace (group_negative R [v]) with (negative R v) by (cbn; rewrite andb_true_r; reflexivity).
    replace (group_negative R [o]) with (negative R o) by (cbn; rewrite andb_true_r; reflexivity). unfold even_neg. cbn [filter]. unfold group_negative.
    destruct (r_list (R v) A_subjs) as [|x ss]; [|set (b := forallb (negative R) (x :: ss)); destruct b]; destruct (negative R v), (negative R o); reflexivity.
  - destruct s as [x|].
    + change [[x]; [v]; [n]; [p]] with (map (fun x => [x]) [x; v; n; p]). rewrite even_singles. reflexivity.
    + unfold even_groups. cbn [filter group_negative forallb]. rewrite !andb_true_r. unfold even_neg. cbn [filter app]. destruct (negative R v), (negative R n), (negative R p); reflexivity.
Qed.
(** "No dogs want to bark": "dogs" is the only negated node, it is in the tuple, but no argument is negative. *)
Theorem C60_negation_refuted :
  exists H root h t nodes tuples tup,
    registered root h = Ok t /\
    (forall r, In r nodes -> (r_aff (find_args H t (fun _ => new_rels) nodes r) = false <-> n_canon (H r) = lit "dogs")) /\
    extract H (find_args H t (fun _ => new_rels) nodes) (fun l => Ok l) nodes = Ok tuples /\ In tup tuples /\
    stuple_flatten true tup = lit "NTNI(dogs, want, dogs, bark)".
Proof.
  exists (w_heap [("no", DET); ("dogs", NOUN); ("want", VERB); ("to", PREP); ("bark", VERB)]%string), 2,
    [(NEG, 1, 0); (SUBJ, 2, 1); (OBJ, 2, 4); (IMARK, 4, 3)].
  eexists. exists [0; 1; 2; 3; 4]. do 2 eexists. split; [reflexivity|]. split.
  - intros r Hr. cbn in Hr. destruct Hr as [<-|[<-|[<-|[<-|[<-|[]]]]]]; vm_compute; split; intros F; try reflexivity; discriminate F.
  - split; [vm_compute; reflexivity|]. split; [left; reflexivity|]. vm_compute. reflexivity.
Qed.

(** * C61 *)
Section InSentence.
  Variables (h : list arc) (H : heap) (nodes : list nat).
  Definition in_sentence (r : nat) : Prop := In r nodes \/ exists l a b, In (l, a, b) h /\ (r = a \/ r = b).
  Lemma last_in c l p : last_reg h c = Some (l, p) -> in_sentence p /\ in_sentence c.
  Proof. intros E. apply last_reg_In in E. split; right; exists l, p, c; auto. Qed.
  Lemma first_in l x y : first_kid h l x y -> in_sentence y.
  Proof.
    intros [rest E]. right. exists l, x, y. split; [|auto]. assert (I : In y (kids h l x)) by (rewrite E; left; reflexivity).
    apply in_map_iff in I. destruct I as ([[l' p] c] & Ec & I). apply filter_In in I. destruct I as [I B]. cbn in *. subst c.
    apply andb_true_iff in B. destruct B as [B1 B2]. apply dep_eqb_ok in B2. apply Nat.eqb_eq in B1. subst. exact I.
  Qed.
  Lemma coord_in x y : in_sentence x -> coordinated h nodes x y -> in_sentence y.
  Proof. intros X [->|[_ [I|I]]]; [exact X| |]; right; [exists AND, x, y|exists OR, x, y]; auto. Qed.
  Lemma attached_in c l p : attached h nodes c l p -> in_sentence c /\ in_sentence p.
  Proof. intros [I E]. destruct (last_in _ _ _ E). auto. Qed.
  Lemma mod_in n v : modified_by h H n v -> in_sentence n.
  Proof. intros (E & _). apply (last_in _ _ _ E). Qed.
  Lemma subject_in v s : subject h H nodes v s -> in_sentence s.
  Proof.
    intros [x v0 v' y s0 A [St|[-> _]] _ C|v0 p y v' s0 A _ _ _ _ F _ C].
    - eapply coord_in; [|exact C]. destruct St as [y _ M|p y _ _ _ _ F]; [eapply mod_in; exact M|eapply first_in; exact F].
    - eapply coord_in; [|exact C]. apply (attached_in _ _ _ A).
    - eapply coord_in; [|exact C]. eapply first_in. exact F.
  Qed.
  Lemma object_in v s : object h H nodes v s -> in_sentence s.
  Proof.
    intros [x v0 v' y s0 A [St|[-> _]] _ C|v0 p s1 v' s0 A _ _ _ _ _ _ C].
    - eapply coord_in; [|exact C]. destruct St as [y _ M|y _ _ F]; [eapply mod_in; exact M|eapply first_in; exact F].
    - eapply coord_in; [|exact C]. apply (attached_in _ _ _ A).
    - eapply coord_in; [|exact C]. apply (attached_in _ _ _ A).
  Qed.
  Lemma dependent_in l v y : dependent h nodes l v y -> in_sentence y.
  Proof. intros (x & A & C). eapply coord_in; [|exact C]. apply (attached_in _ _ _ A). Qed.
  Lemma adjective_in n y : adjective h H nodes n y -> in_sentence y.
  Proof. intros [n0 x y0 A _ _ C|n0 x y0 A _ _ _ C]; (eapply coord_in; [|exact C]); apply (attached_in _ _ _ A). Qed.
  Lemma agent_in d y : agent h H nodes d y -> in_sentence y.
  Proof. intros [d0 x m l p y0 A _ _ _ _ C]. eapply coord_in; [|exact C]. apply (attached_in _ _ _ A). Qed.
  Lemma copula_in s v p : copula_prop h H nodes s (v, p) -> in_sentence v /\ in_sentence p.
  Proof.
    intros K. inversion K as [x v0 s0 y s1 p0 A _ _ _ C _ E1 E2]. subst. split; [apply (attached_in _ _ _ A)|]. eapply coord_in; [|exact C]. apply (attached_in _ _ _ A).
  Qed.
  Lemma pp_in n x p : pp_prop h H nodes n (x, p) -> in_sentence x /\ in_sentence p.
  Proof.
    intros K. inversion K as [p0 n0 x0 y A _ _ _ _ F C E1 E2]. subst. split; [apply (attached_in _ _ _ A)|]. eapply coord_in; [|exact C]. eapply first_in. exact F.
  Qed.
  Lemma svi_in n s v p : subj_verb_iprop h nodes n (s, v, p) -> in_sentence v /\ in_sentence p.
  Proof.
    intros K. inversion K as [x v0 o o' y s0 A _ _ C _ E1 E2]. subst. split; [apply (attached_in _ _ _ A)|]. eapply coord_in; [|exact C]. apply (attached_in _ _ _ A).
  Qed.
End InSentence.
Theorem C61_provenance : forall H root h t nodes past_participle pp tuples, (forall l, past_participle l = Ok (pp l)) ->
  registered root h = Ok t ->
  extract H (find_args H t (fun _ => new_rels) nodes) past_participle nodes = Ok tuples ->
  forall tup a, In tup tuples -> In a tup ->
    word_from H pp (fun r => In r nodes \/ exists l x y, In (l, x, y) h /\ (r = x \/ r = y)) (a_word a).
Proof.
  intros H root h t nodes pf pp tuples Hpp Ht E tup a Htup Ha. set (R := find_args H t (fun _ => new_rels) nodes) in *.
  destruct (C74_exact_tuples H R pf pp nodes Hpp) as (l & E' & Hl). rewrite E in E'. injection E' as ->. apply Hl in Htup. clear Hl E.
  change (fun r => In r nodes \/ exists l x y, In (l, x, y) h /\ (r = x \/ r = y)) with (in_sentence h nodes).
  assert (S : forall v s, subj_noun H R v s -> in_sentence h nodes s)
    by (intros v s [I _]; apply (C63_subjects_objects H root h t nodes Ht v s) in I; eapply subject_in; exact I).
  assert (O : forall v s, obj_noun H R v s -> in_sentence h nodes s)
    by (intros v s [I _]; apply (C63_subjects_objects H root h t nodes Ht v s) in I; eapply object_in; exact I).
  assert (OV : forall v s, obj_verb H R v s -> in_sentence h nodes s)
    by (intros v s [I _]; apply (C63_subjects_objects H root h t nodes Ht v s) in I; eapply object_in; exact I).
  assert (CS : forall s o s2, in_sentence h nodes s -> clause_subj H R s o s2 -> in_sentence h nodes s2)
    by (intros s o s2 Hs [[_ ->]|C]; [exact Hs|eapply S; exact C]).
  assert (OT := fun v => C73_other_arguments H root h t nodes Ht v). cbv zeta in OT. fold R in OT.
  assert (N : forall r, In r nodes -> in_sentence h nodes r) by (intros r I; left; exact I).
  assert (M : forall r, main H R nodes r -> in_sentence h nodes r) by (intros r I; apply N; apply I).
  destruct Htup as [v s o s2 Mv Hs Ho Hc L I|v s o s2 o2 Mv Hs Ho Hc L Ho2|v s o s2 p Mv Hs Ho Hc Hp|v s Mv NSub Hs I|v s o Mv NSub Hs Ho|v s io Mv NSub Hs Hio Hn|v o Hv V L Hw Ho
        |n s v p Hn Nn Hp Hat|n c p Hn Nn Hp Hat|n c p ag v Hn Nn Hp Htg Hv Hag Hat|n x p Hn Nn Hp Hat|n ad Hn Nn Had|n p ag v Hn Nn Hp Hv Hag Hat];
    cbn [In] in Ha; repeat (destruct Ha as [<-|Ha]; [|]); try (now destruct Ha); cbn [a_word narg arg].
  all: try (apply w_canon; eauto; fail).
  all: try apply w_be.
  - apply w_canon. apply (OT o) in Hp. eapply dependent_in. exact Hp.
  - apply w_canon. apply (OT v) in Hio. eapply dependent_in. exact Hio.
  - apply w_pp. auto.
  - apply w_be_pp. apply (OT n) in Hp. apply svi_in in Hp. apply Hp.
  - apply w_canon. apply (OT n) in Hp. apply svi_in in Hp. apply Hp.
  - apply w_canon. apply (OT n) in Hp. apply copula_in in Hp. apply Hp.
  - apply w_canon. apply (OT n) in Hp. apply copula_in in Hp. apply Hp.
  - apply w_canon. apply (OT p) in Hag. eapply agent_in. exact Hag.
  - eapply w_active; [|exact Hv]. apply (OT n) in Hp. apply copula_in in Hp. apply Hp.
  - apply w_be_canon. apply (OT n) in Hp. apply pp_in in Hp. apply Hp.
  - apply w_canon. apply (OT n) in Hp. apply pp_in in Hp. apply Hp.
  - apply w_canon. apply (OT n) in Had. eapply adjective_in. exact Had.
  - apply w_canon. apply (OT p) in Hag. eapply agent_in. exact Hag.
  - eapply w_active; [|exact Hv]. apply (OT n) in Hp. eapply adjective_in. exact Hp.
Qed.

(** * C62 *)
(** The text of a tuple, written without the model's helpers *)
Definition shown (a : argument) : str := (if a_aff a then [] else lit "NOT ") ++ a_word a.
Fixpoint commas (l : list str) : str := match l with [] => [] | [x] => x | x :: l' => x ++ lit ", " ++ commas l' end.
Theorem C62_argument : forall word code b,
  (In code (map lit ["A"; "C"; "L"; "I"; "N"; "O"; "P"; "R"; "S"; "T"; "U"]%string) /\
   exists a, new_argument word code b = Ok a /\ a_word a = word /\ a_code a = code /\ a_aff a = b /\
     argument_tag a = (if existsb (str_eqb code) (map lit ["A"; "L"]%string) then lit "ADJ"
                       else if existsb (str_eqb code) (map lit ["I"; "R"; "T"]%string) then lit "VERB" else lit "NOUN"))
  \/ (~ In code (map lit ["A"; "C"; "L"; "I"; "N"; "O"; "P"; "R"; "S"; "T"; "U"]%string) /\ new_argument word code b = Err ArgumentValueError).
Proof.
  intros w c b. unfold new_argument. change (map value all_codes) with (map lit ["A"; "C"; "L"; "I"; "N"; "O"; "P"; "R"; "S"; "T"; "U"]%string).
  destruct (str_in c _) eqn:E.
  - left. apply str_in_In in E. split; [exact E|]. eexists. split; [reflexivity|]. repeat split.
  - right. split; [|reflexivity]. rewrite <- str_in_In. congruence.
Qed.
Theorem C62_text : forall t : stuple,
  Forall (fun a => exists w c b, new_argument w c b = Ok a) t ->
  length (stuple_code t) = length t /\
  (forall i a, nth_error t i = Some a -> exists ch, a_code a = [ch] /\ nth_error (stuple_code t) i = Some ch) /\
  stuple_flatten true t = stuple_code t ++ lit "(" ++ commas (map shown t) ++ lit ")" /\
  stuple_flatten false t = stuple_code t ++ lit "(" ++ commas (map a_word t) ++ lit ")" /\
  (forall c, has_any_arg_with_code t c = true <-> exists a, In a t /\ a_code a = c).
Proof.
  intros t Ht.
  assert (Hc : Forall (fun a => exists ch, a_code a = [ch]) t).
  { eapply Forall_impl; [|exact Ht]. intros a (w & c & b & E). unfold new_argument in E. destruct (str_in c _) eqn:I; [|discriminate]. injection E as <-. cbn [a_code].
    apply str_in_In in I. cbn in I. repeat (destruct I as [<-|I]; [eexists; reflexivity|]). destruct I. }
  assert (HC : forall l, Forall (fun a => exists ch, a_code a = [ch]) l -> forall i a, nth_error l i = Some a -> exists ch, a_code a = [ch] /\ nth_error (stuple_code l) i = Some ch).
  { clear. induction 1 as [|x l [ch E] _ IH]; intros i a Ea; [destruct i; discriminate|].
    assert (J : stuple_code (x :: l) = ch :: stuple_code l).
    { unfold stuple_code. cbn [map]. rewrite E. destruct l; reflexivity. }
    rewrite J. destruct i as [|i]; cbn in Ea |- *; [injection Ea as <-; exists ch; auto|apply IH; exact Ea]. }
  assert (HL : length (stuple_code t) = length t).
  { clear -Hc. induction Hc as [|x l [ch E] _ IH]; [reflexivity|]. cbn [length]. rewrite <- IH. unfold stuple_code. cbn [map]. rewrite E. destruct l; reflexivity. }
  assert (HJ : forall l, join (lit ", ") l = commas l).
  { clear. induction l as [|x [|y l] IH]; [reflexivity|reflexivity|]. change (commas (x :: y :: l)) with (x ++ lit ", " ++ commas (y :: l)). rewrite <- IH. reflexivity. }
  split; [exact HL|]. split; [apply HC; exact Hc|]. unfold stuple_flatten. rewrite !HJ. split; [|split].
  - do 4 f_equal. unfold argument_flatten, shown. apply map_ext. intros a. destruct (a_aff a); reflexivity.
  - reflexivity.
  - intros c. unfold has_any_arg_with_code. rewrite existsb_exists. split; intros (a & I & E); exists a; (split; [exact I|]); apply str_eqb_eq; exact E.
Qed.

(** "Cats chase red mice": a tuple for the verb, one for its passive form and one for the adjective. *)
Example C74_witness :
  let H := w_heap [("cats", NOUN); ("chase", VERB); ("mice", NOUN); ("red", ADJ)]%string in
  let h := [(SUBJ, 1, 0); (OBJ, 1, 2); (CPL, 2, 3)] in
  exists t tuples, registered 1 h = Ok t /\ extract H (find_args H t (fun _ => new_rels) [0; 1; 2; 3]) (fun l => Ok (l ++ lit "d")) [0; 1; 2; 3] = Ok tuples /\
    map (stuple_flatten true) tuples = map lit ["NTN(cats, chase, mice)"; "NCA(mice, be, red)"; "NCL(mice, be, chased)"]%string.
Proof. do 2 eexists. split; [reflexivity|]. split; [vm_compute; reflexivity|]. vm_compute. reflexivity. Qed.
(** "dogs not bark" *)
Example C60_witness :
  let H := w_heap [("dogs", NOUN); ("not", ADV); ("bark", VERB)]%string in
  exists t tuples, registered 2 [(SUBJ, 2, 0); (NEG, 2, 1)] = Ok t /\
    extract H (find_args H t (fun _ => new_rels) [0; 2]) (fun l => Ok l) [0; 2] = Ok tuples /\
    map (stuple_flatten true) tuples = [lit "NI(dogs, NOT bark)"] /\ map (map a_aff) tuples = [[true; false]].
Proof. do 2 eexists. split; [reflexivity|]. split; [vm_compute; reflexivity|]. vm_compute. auto. Qed.
(** arg(i) is the i-th argument, from the end for a negative i; IndexError out of range. *)
Theorem C62_arg : forall (t : stuple) (i : Z),
  ((0 <= i < Z.of_nat (length t))%Z -> exists a, stuple_arg t i = Ok a /\ nth_error t (Z.to_nat i) = Some a) /\
  ((- Z.of_nat (length t) <= i < 0)%Z -> exists a, stuple_arg t i = Ok a /\ nth_error t (Z.to_nat (Z.of_nat (length t) + i)) = Some a) /\
  ((i < - Z.of_nat (length t) \/ Z.of_nat (length t) <= i)%Z -> stuple_arg t i = Err IndexError).
Proof.
  intros t i. unfold stuple_arg.
  assert (HS : forall k, k < length t -> exists a, nth_error t k = Some a).
  { intros k Hk. destruct (nth_error t k) eqn:E; [eauto|]. apply nth_error_None in E. lia. }
  split; [|split].
  - intros H. destruct (HS (Z.to_nat i) ltac:(lia)) as (a & E). exists a. split; [|exact E].
    rewrite <- (Z2Nat.id i) by lia. rewrite index_nat, E. reflexivity.
  - intros H. destruct (HS (Z.to_nat (Z.of_nat (length t) + i)) ltac:(lia)) as (a & E). exists a. split; [|exact E].
    replace i with (- Z.of_nat (Z.to_nat (- i)))%Z by lia. rewrite index_neg by lia.
    replace (length t <? Z.to_nat (- i)) with false by (symmetry; apply Nat.ltb_ge; lia).
    replace (length t - Z.to_nat (- i)) with (Z.to_nat (Z.of_nat (length t) + i)) by lia. rewrite E. reflexivity.
  - intros H. destruct (Z.ltb_spec i 0) as [L|L].
    + replace i with (- Z.of_nat (Z.to_nat (- i)))%Z by lia. rewrite index_neg by lia.
      replace (length t <? Z.to_nat (- i)) with true by (symmetry; apply Nat.ltb_lt; lia). reflexivity.
    + rewrite <- (Z2Nat.id i) by lia. rewrite index_nat. assert (nth_error t (Z.to_nat i) = None) as -> by (apply nth_error_None; lia). reflexivity.
Qed.
Example C62_witness : exists a b, new_argument (lit "dog") (lit "N") true = Ok a /\ new_argument (lit "bark") (lit "I") false = Ok b /\
  stuple_flatten true [a; b] = lit "NI(dog, NOT bark)" /\ stuple_flatten false [a; b] = lit "NI(dog, bark)" /\
  new_argument (lit "dog") (lit "X") true = Err ArgumentValueError.
Proof. do 2 eexists. split; [reflexivity|]. split; [reflexivity|]. vm_compute. auto. Qed.

Print Assumptions C59_grammar.
Print Assumptions C60_negation_partial.
Print Assumptions C60_negation_refuted.
Print Assumptions C61_provenance.
Print Assumptions C62_argument.
Print Assumptions C62_text.
Print Assumptions C62_arg.
Print Assumptions C74_exact_tuples.
