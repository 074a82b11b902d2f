(** Properties C76 and C77: the data extracted to train the models (syntax/labelled_data.py:28-59, syntax/training_samples.py). *)
From Coq Require Import Ascii String.
From Coq Require Import List NArith ZArith Arith Bool Lia Permutation.
From Verif Require Import PyBase Regex MUtils MTree MVector MParser MLabelled MTrain SUtils STree SVector SParser SLabelled STrain LBase LText LTree LVector LParser LParserCall LOracle LTrain.
Import ListNotations.
Local Open Scope nat_scope.

(** * C76: what is extracted *)
(** Sentences written with the names of tags and dependencies are read as such; a name that does not exist raises KeyError. *)
Theorem C76_names : forall tuples, make_labelled_named (map named tuples) = make_labelled tuples.
Proof. exact labelled_named. Qed.
Theorem C76_unknown_name : forall before t after, no_self before ->
  (forall d, dep_name d <> nt_dep t) \/ (rooted before /\ forall g, tag_name g <> nt_tag t) ->
  make_labelled_named (map named before ++ t :: after) = Err KeyError.
Proof.
  intros before t after HN H. unfold make_labelled_named. rewrite find_named_root_app. fold (enumerate before).
  destruct (rooted_dec before) as [HR|HR].
  - destruct (find_rooted _ HR) as (r & tr & Er & Etr & EF). rewrite EF. cbn [rbind].
    match goal with |- rbind (foldM ?f _ _) _ = _ => change f with read_step end.
    unfold enumerate. rewrite enum_from_app, foldM_app, read_named by reflexivity. fold (enumerate before). rewrite (fold_gold_ok before r HN). cbn [rbind].
    cbn [enum_from foldM]. unfold read_step at 1. destruct H as [H|[_ H]].
    + rewrite (dep_unknown _ H). reflexivity.
    + rewrite (tag_unknown _ H). destruct (dep_named (nt_dep t)) as [d|e] eqn:Ed; cbn [rbind]; [reflexivity|].
      Transparent dep_named. unfold dep_named, of_option in Ed. Opaque dep_named. destruct (dget str_eqb (nt_dep t) dep_members); [discriminate|]. injection Ed as <-. reflexivity.
  - rewrite find_unrooted by exact HR. destruct H as [H|[H _]]; [|contradiction]. cbn [find_named_root]. rewrite (dep_unknown _ H). reflexivity.
Qed.

(** [rows]: one example per sentence, in the order of the sentences; the columns are these rows in some order. *)
Theorem C76_tags : forall V v0 U cs ws shuffle data, ws_ok V ws -> (forall l, Permutation l (shuffle l)) ->
  (forall tuples, In tuples data -> no_self tuples /\ (rooted tuples -> length tuples <= 50)) ->
  exists rows, Forall2 (fun tuples row => exists k, kept tuples k /\ tags_example V v0 U cs ws k row) data rows /\
  exists out, extract_ptags_training_data V v0 U cs ws shuffle (map (map named) data) = Ok out /\
    (out = None <-> data = []) /\
    forall chars words tags, out = Some (chars, words, tags) ->
      length chars = length data /\ length words = length data /\ length tags = length data /\
      Permutation rows (combine (combine chars words) tags).
Proof.
  intros V v0 U cs ws sh data HW Hsh HD. destruct (ready_load data) as (ls & El & HF); [apply Forall_forall; exact HD|].
  destruct (samples_from (fun sent => ptags_sample V v0 U cs ws (l_tokens sent) (l_tags sent)) (tags_example V v0 U cs ws) data ls HF) as (rows & Er & HR).
  { intros tu k l _ _ HV HL. apply tags_sample_ok; assumption. }
  exists rows. split; [exact HR|]. unfold extract_ptags_training_data. rewrite El. cbn [rbind]. rewrite Er. cbn [rbind]. eexists. split; [reflexivity|].
  pose proof (Forall2_len _ _ _ HR) as HL. pose proof (Permutation_length (Hsh rows)) as HP. split.
  - unfold columns3. destruct (sh rows) as [|r rs]; [|split; [discriminate|]].
    + split; [intros _|reflexivity]. destruct data; [reflexivity|cbn in *; lia].
    + intros ->. cbn in *. lia.
  - intros c w y E. unfold columns3 in E. destruct (sh rows) as [|r rs] eqn:Es; [discriminate|]. rewrite <- Es in E, HP. injection E as <- <- <-.
    rewrite !map_length, HL, HP. do 3 (split; [reflexivity|]). rewrite combine3. apply Hsh.
Qed.
Theorem C76_deps : forall V v0 U cs ws shuffle data, ws_ok V ws -> (forall l, Permutation l (shuffle l)) ->
  (forall tuples, In tuples data -> no_self tuples /\ (rooted tuples -> length tuples <= 50)) ->
  exists rows, Forall2 (fun tuples row => exists k, kept tuples k /\ deps_example V v0 U cs ws k row) data rows /\
  exists out, extract_pdeps_training_data V v0 U cs ws shuffle (map (map named) data) = Ok out /\
    (out = None <-> data = []) /\
    forall tags chars words deps, out = Some (tags, chars, words, deps) ->
      length tags = length data /\ length chars = length data /\ length words = length data /\ length deps = length data /\
      Permutation rows (combine (combine (combine tags chars) words) deps).
Proof.
  intros V v0 U cs ws sh data HW Hsh HD. destruct (ready_load data) as (ls & El & HF); [apply Forall_forall; exact HD|].
  destruct (samples_from (fun sent => pdeps_sample V v0 U cs ws (l_tokens sent) (l_tags sent) (l_deps sent)) (deps_example V v0 U cs ws) data ls HF) as (rows & Er & HR).
  { intros tu k l _ _ HV HL. apply deps_sample_ok; assumption. }
  exists rows. split; [exact HR|]. unfold extract_pdeps_training_data. rewrite El. cbn [rbind]. rewrite Er. cbn [rbind]. eexists. split; [reflexivity|].
  pose proof (Forall2_len _ _ _ HR) as HL. pose proof (Permutation_length (Hsh rows)) as HP. split.
  - unfold columns4. destruct (sh rows) as [|r rs]; [|split; [discriminate|]].
    + split; [intros _|reflexivity]. destruct data; [reflexivity|cbn in *; lia].
    + intros ->. cbn in *. lia.
  - intros t c w y E. unfold columns4 in E. destruct (sh rows) as [|r rs] eqn:Es; [discriminate|]. rewrite <- Es in E, HP. injection E as <- <- <- <-.
    rewrite !map_length, HL, HP. do 4 (split; [reflexivity|]). rewrite combine4. apply Hsh.
Qed.
(** For the transitions, [rows] are the examples of each sentence. No two examples of a sentence show the same two tokens. *)
Theorem C76_trans : forall V v0 U cs ws shuffle data, ws_ok V ws -> (forall l, Permutation l (shuffle l)) ->
  (forall tuples, In tuples data -> no_self tuples /\ (rooted tuples -> length tuples <= 50)) ->
  exists rows, Forall2 (fun tuples rows => exists k, kept tuples k /\ sentence_trans V v0 U cs ws k rows /\
      NoDup (map (fun '(_, _, _, _, m1, m2, _) => (m1, m2)) rows)) data rows /\
  exists out, extract_trans_training_data V v0 U cs ws shuffle (map (map named) data) = Ok out /\
    (out = None <-> concat rows = []) /\
    forall tags deps chars words masks_1 masks_2 codes, out = Some (tags, deps, chars, words, masks_1, masks_2, codes) ->
      let n := length (concat rows) in
      length tags = n /\ length deps = n /\ length chars = n /\ length words = n /\ length masks_1 = n /\ length masks_2 = n /\ length codes = n /\
      Permutation (concat rows) (combine (combine (combine (combine (combine (combine tags deps) chars) words) masks_1) masks_2) codes).
Proof.
  intros V v0 U cs ws sh data HW Hsh HD. destruct (ready_load data) as (ls & El & HF); [apply Forall_forall; exact HD|].
  destruct (samples_from (fun sent => let! trs := transitions sent in
        mapM (fun '(idx_1, idx_2, transition) => trans_sample V v0 U cs ws (l_tokens sent) (l_tags sent) (l_deps sent) idx_1 idx_2 transition) trs)
     (sentence_trans V v0 U cs ws) data ls HF) as (rows & Er & HR).
  { intros tu k l HK Ek HV HL. eapply sentence_trans_ok; eauto. }
  exists rows. split.
  { clear - HR. induction HR as [|tu r data rows (k & HK & HS) HR IH]; constructor; [|exact IH]. exists k. split; [exact HK|]. split; [exact HS|].
    destruct HS as (l & trs & E1 & E2 & HF). apply transitions_nodup in E2. eapply (NoDup_rel fst); [|exact HF|exact E2].
    intros [[s b] t] c [[s' b'] t'] c' (d & x1 & x2 & m1 & m2 & _ & _ & _ & O1 & O2 & ->) (d' & y1 & y2 & n1 & n2 & _ & _ & _ & O1' & O2' & ->) E. cbn in *. injection E as <- <-.
    f_equal; [assert (s + 1 = s' + 1) by (eapply one_hot_inj; eauto)|assert (b + 1 = b' + 1) by (eapply one_hot_inj; eauto)]; lia. }
  unfold extract_trans_training_data. rewrite El. cbn [rbind]. rewrite Er. cbn [rbind]. eexists. split; [reflexivity|].
  pose proof (Permutation_length (Hsh (concat rows))) as HP. split.
  - unfold columns7. destruct (sh (concat rows)) as [|r rs]; [|split; [discriminate|]].
    + split; [intros _|reflexivity]. destruct (concat rows); [reflexivity|cbn in *; lia].
    + intros E. rewrite E in HP. cbn in *. lia.
  - intros t d c w m1 m2 y E. unfold columns7 in E. destruct (sh (concat rows)) as [|r rs] eqn:Es; [discriminate|]. rewrite <- Es in E, HP. injection E as <- <- <- <- <- <- <-.
    cbv zeta. rewrite !map_length, HP. do 7 (split; [reflexivity|]). rewrite combine7. apply Hsh.
Qed.
(** A sentence of more than 50 tokens is refused; so is a token that is its own parent. *)
Theorem C76_refused : forall V v0 U cs ws shuffle_tags shuffle_deps data, ws_ok V ws ->
  (forall tuples, In tuples data -> no_self tuples) -> (exists tuples, In tuples data /\ rooted tuples /\ 50 < length tuples) ->
  extract_ptags_training_data V v0 U cs ws shuffle_tags (map (map named) data) = Err SentenceTooLongError /\
  extract_pdeps_training_data V v0 U cs ws shuffle_deps (map (map named) data) = Err SentenceTooLongError.
Proof.
  intros V v0 U cs ws s1 s2 data HW HN (tu & Hin & HR & HL).
  destruct (mapM_exists make_labelled_named (fun tu l => exists tuples k, tu = map named tuples /\ kept tuples k /\ make_labelled tuples = Ok l /\ views k l) (map (map named) data)) as (ls & El & HF).
  { intros x Hx. apply in_map_iff in Hx. destruct Hx as (tuples & <- & Hx). rewrite labelled_named. destruct (load_ok tuples (HN _ Hx)) as (k & l & HK & E & HV). exists l. split; [exact E|]. eauto 8. }
  assert (HV : forall l, In l ls -> exists k, views k l).
  { intros l Hl. clear - HF Hl. induction HF as [|x y xs ys (tuples & k & _ & _ & _ & HV) _ IH]; [destruct Hl|]. destruct Hl as [<-|Hl]; [eauto|auto]. }
  destruct (load_rooted tu HR (HN _ Hin)) as [tr Et]. pose proof (loaded data ls tu _ El Hin Et) as Hl.
  unfold extract_ptags_training_data, extract_pdeps_training_data. rewrite El. cbn [rbind]. split.
  - rewrite mapM_err with (e := SentenceTooLongError); [reflexivity| |].
    + intros l H. destruct (HV l H) as (k & E1 & E2 & _). destruct (Nat.le_gt_cases (length k) 50) as [Hk|Hk].
      * left. destruct (tags_sample_ok V v0 U cs ws HW k {| l_tokens := l_tokens l; l_tags := l_tags l; l_deps := map tt_dep k; l_tree := None |}) as (r & E & _); [repeat split; assumption|exact Hk|eauto].
      * right. unfold ptags_sample. rewrite vectorize_long by (rewrite E1, map_length; exact Hk). reflexivity.
    + eexists. split; [exact Hl|]. unfold ptags_sample. cbn [l_tokens]. rewrite vectorize_long by (rewrite map_length; exact HL). reflexivity.
  - rewrite mapM_err with (e := SentenceTooLongError); [reflexivity| |].
    + intros l H. destruct (HV l H) as (k & E1 & E2 & E3). destruct (Nat.le_gt_cases (length k) 50) as [Hk|Hk].
      * left. destruct (deps_sample_ok V v0 U cs ws HW k l) as (r & E & _); [repeat split; assumption|exact Hk|eauto].
      * right. unfold pdeps_sample. rewrite vectorize_long by (rewrite E1, map_length; exact Hk). reflexivity.
    + eexists. split; [exact Hl|]. unfold pdeps_sample. cbn [l_tokens]. rewrite vectorize_long by (rewrite map_length; exact HL). reflexivity.
Qed.
Theorem C76_own_parent : forall tuples l c, rooted tuples -> labelled_arc tuples (l, c, c) -> make_labelled_named (map named tuples) = Err AssertionError.
Proof.
  intros tuples l c HR HA. rewrite labelled_named. apply load_self; [exact HR|]. intros H. unfold no_loop in H. rewrite Forall_forall in H. apply gold_In in HA.
  exact (H _ HA eq_refl).
Qed.

(** * C77: models that have learned their data make the parser reproduce it *)
(** The three models are trained separately, on data shuffled in different orders. *)
Theorem C77_learned : forall V v0 U cs ws (M : models V) shuffle_tags shuffle_deps shuffle_trans data tags_data deps_data trans_data,
  ws_ok V ws -> models_ok V M ->
  (forall l, Permutation l (shuffle_tags l)) -> (forall l, Permutation l (shuffle_deps l)) -> (forall l, Permutation l (shuffle_trans l)) ->
  (forall tuples, In tuples data -> projective_tree tuples /\ length tuples <= 50) ->
  extract_ptags_training_data V v0 U cs ws shuffle_tags (map (map named) data) = Ok tags_data -> learned_tags V M tags_data ->
  extract_pdeps_training_data V v0 U cs ws shuffle_deps (map (map named) data) = Ok deps_data -> learned_deps V M deps_data ->
  extract_trans_training_data V v0 U cs ws shuffle_trans (map (map named) data) = Ok trans_data -> learned_trans V M trans_data ->
  forall nb_processes batch_size, (1 <= nb_processes)%Z -> 1 <= batch_size -> (Z.of_nat (length data) <= 2 ^ 53)%Z ->
  exists trees, parser_call V v0 U M cs ws nb_processes (Z.of_nat batch_size) (map (map tt_token) data) = Ok (map (map tt_tag) data, trees) /\
    Forall2 labelled_tree data trees.
Proof.
  intros V v0 U cs ws M st sd sr data dt dd dr HW HM Pt Pd Pr HD Et Lt Ed Ld Er Lr nb bs Hnb Hbs HL.
  assert (HL' : (Z.of_nat (length (map (map tt_token) data)) <= 2 ^ 53)%Z) by (rewrite map_length; exact HL).
  destruct (parser_call_ok V v0 U M cs ws HM HW nb bs (map (map tt_token) data) Hnb Hbs HL') as (tags & trees & E & L1 & L2 & HF).
  { intros toks Hin. apply in_map_iff in Hin. destruct Hin as (tu & <- & Hin). rewrite map_length. apply (HD _ Hin). }
  rewrite map_length in L1, L2. exists trees. rewrite E.
  assert (K : map (map tt_tag) data = tags /\ Forall2 labelled_tree data trees); [|destruct K as [-> K]; auto].
  assert (HP : forall tu, In tu data -> exists tree, parsed V v0 U M cs ws (map tt_token tu) (map tt_tag tu) tree /\ labelled_tree tu tree).
  { intros tu Hin. eapply learned_parsed with (data := data); eauto; apply (HD _ Hin). }
  clear - HF HP L1 L2. revert tags trees HF L1 L2. induction data as [|tu data IH]; intros tags trees HF L1 L2.
  - destruct tags, trees; try discriminate. split; [reflexivity|constructor].
  - destruct tags as [|g tags], trees as [|o trees]; try discriminate. cbn [map combine] in HF. inversion HF as [|? ? ? ? H1 H2]; subst. cbn in H1.
    destruct (HP tu (or_introl eq_refl)) as (tree & Hp & Ht). destruct (parsed_fun V v0 U M cs ws _ _ _ _ _ Hp H1) as [<- <-].
    destruct (IH (fun tu H => HP tu (or_intror H)) tags trees H2) as [E1 E2]; [cbn in L1; lia|cbn in L2; lia|]. cbn [map]. rewrite E1. split; [reflexivity|constructor; assumption].
Qed.

(** * Witnesses *)
(** two sentences: the one of C25 and a single root *)
From Verif Require Import POracle.
Definition w_data : list (list token_tuple) := [c25_sentence; [{| tt_token := lit "Go"; tt_tag := VERB; tt_dep := ROOT; tt_parent := -1 |}]].
Definition w_nat_eqb (a b : list nat) : bool := if list_eq_dec Nat.eq_dec a b then true else false.
Definition w_bool_eqb (a b : list bool) : bool := if list_eq_dec Bool.bool_dec a b then true else false.
Definition w_mat_eqb (a b : list (list nat)) : bool := if list_eq_dec (list_eq_dec Nat.eq_dec) a b then true else false.
(** models that answer what is in the tables, and zeros elsewhere *)
Definition w_tags := match extract_ptags_training_data unit tt ascii_udb [] [] (@rev _) (map (map named) w_data) with Ok (Some (c, w, y)) => combine (combine c w) y | _ => [] end.
Definition w_deps := match extract_pdeps_training_data unit tt ascii_udb [] [] (@rev _) (map (map named) w_data) with
  | Ok (Some (t, c, w, y)) => combine (combine (combine t c) w) y | _ => [] end.
Definition w_trans := match extract_trans_training_data unit tt ascii_udb [] [] (fun l => l) (map (map named) w_data) with
  | Ok (Some (t, d, c, w, m1, m2, y)) => combine (combine (combine (combine (combine (combine t d) c) w) m1) m2) y | _ => [] end.
Definition w_models : models unit := {|
  ptags_model := fun c _ => match find (fun '(c', _, _) => w_mat_eqb c c') w_tags with Some (_, _, y) => y | None => repeat 0 52 end;
  pdeps_model := fun t c _ => match find (fun '(t', c', _, _) => w_nat_eqb t t' && w_mat_eqb c c') w_deps with Some (_, _, _, y) => y | None => repeat 0 52 end;
  trans_model := fun t d c _ m1 m2 => match find (fun '(t', d', c', _, m1', m2', _) => w_nat_eqb t t' && w_nat_eqb d d' && w_mat_eqb c c' && w_bool_eqb m1 m1' && w_bool_eqb m2 m2') w_trans with
    Some (_, _, _, _, _, _, y) => y | None => 3 end |}.
Lemma w_mat_ok a b : w_mat_eqb a b = true -> a = b.
Proof. unfold w_mat_eqb. destruct (list_eq_dec _ a b); [auto|discriminate]. Qed.
Lemma w_nat_ok a b : w_nat_eqb a b = true -> a = b.
Proof. unfold w_nat_eqb. destruct (list_eq_dec _ a b); [auto|discriminate]. Qed.
Lemma w_codes_ok b l : (length l =? 52) && forallb (fun c => c <? b) l = true -> codes_ok b l.
Proof. intros H. apply andb_prop in H. destruct H as [H1 H2]. split; [apply Nat.eqb_eq in H1; exact H1|apply Forall_ltb; exact H2]. Qed.
Lemma w_models_ok : models_ok unit w_models.
Proof.
  constructor; cbn [ptags_model pdeps_model trans_model w_models].
  - intros c w. destruct (find _ w_tags) as [[[x u] y]|] eqn:E; [|apply w_codes_ok; reflexivity]. apply find_some in E. destruct E as [Hin _]. apply w_codes_ok.
    assert (K : forallb (fun '(_, _, y) => (length y =? 52) && forallb (fun c => c <? 17) y) w_tags = true) by (vm_compute; reflexivity). rewrite forallb_forall in K. exact (K _ Hin).
  - intros t c w. destruct (find _ w_deps) as [[[[x u] v] y]|] eqn:E; [|apply w_codes_ok; reflexivity]. apply find_some in E. destruct E as [Hin _]. apply w_codes_ok.
    assert (K : forallb (fun '(_, _, _, y) => (length y =? 52) && forallb (fun c => c <? 25) y) w_deps = true) by (vm_compute; reflexivity). rewrite forallb_forall in K. exact (K _ Hin).
  - intros t d c w m1 m2. destruct (find _ w_trans) as [[[[[[[x1 x2] x3] x4] x5] x6] y]|] eqn:E; [|lia]. apply find_some in E. destruct E as [Hin _].
    assert (K : forallb (fun '(_, _, _, _, _, _, y) => y <? 4) w_trans = true) by (vm_compute; reflexivity). rewrite forallb_forall in K. apply Nat.ltb_lt. exact (K _ Hin).
Qed.
Lemma w_go : projective_tree [{| tt_token := lit "Go"; tt_tag := VERB; tt_dep := ROOT; tt_parent := -1 |}].
Proof.
  assert (HA : forall a, ~ labelled_arc [{| tt_token := lit "Go"; tt_tag := VERB; tt_dep := ROOT; tt_parent := -1 |}] a).
  { intros [[l p] [|c]] (t & E & _ & _ & H & _); cbn in E; [injection E as <-; apply H; reflexivity|destruct c; discriminate]. }
  constructor.
  - exists 0. eexists. split; [reflexivity|]. split; [reflexivity|]. intros [|[|r]] t' E _; [reflexivity|discriminate|discriminate].
  - intros [|[|i]] t E H1 H2; try discriminate. injection E as <-. exfalso. apply H2. reflexivity.
  - intros i H. inversion H; subst; eapply HA; eauto.
  - intros l p c k H. exfalso. eapply HA; eauto.
Qed.
Example C76_witness : (forall tuples, In tuples w_data -> no_self tuples /\ (rooted tuples -> length tuples <= 50)) /\
  rooted c25_sentence /\ length w_tags = 2 /\ length w_deps = 2 /\ length w_trans = 4 /\
  make_labelled_named [{| nt_token := lit "a"; nt_tag := lit "NOUN"; nt_dep := lit "nsubj"; nt_parent := 1 |}] = Err KeyError /\
  (let long := repeat (tup NODEP (-1)) 50 ++ [tup ROOT (-1)] in
   rooted long /\ no_self long /\ 50 < length long).
Proof.
  assert (NS : forall t, projective_tree t -> no_self t) by (intros t H l c Ha; apply (no_cycle _ H c); eapply dom_one; eauto).
  split; [|split; [exists (tup ROOT (-1)); split; [right; left; reflexivity|reflexivity]|split; [vm_compute; reflexivity|split; [vm_compute; reflexivity|split; [vm_compute; reflexivity|split; [vm_compute; reflexivity|]]]]]].
  - intros t [<-|[<-|[]]]; (split; [apply NS|cbn; lia]); [apply C25_witness|apply w_go].
  - split; [exists (tup ROOT (-1)); split; [apply in_or_app; right; left; reflexivity|reflexivity]|]. split; [|cbn; lia].
    intros l c (t & E & H1 & H2 & H3 & H4). apply nth_error_In in E. apply in_app_or in E. destruct E as [E|[<-|[]]]; [apply repeat_spec in E; subst; apply H4; reflexivity|apply H3; reflexivity].
Qed.
Example C77_witness : models_ok unit w_models /\ (forall tuples, In tuples w_data -> projective_tree tuples /\ length tuples <= 50) /\
  (exists d, extract_ptags_training_data unit tt ascii_udb [] [] (@rev _) (map (map named) w_data) = Ok (Some d) /\ learned_tags unit w_models (Some d)) /\
  (exists d, extract_pdeps_training_data unit tt ascii_udb [] [] (@rev _) (map (map named) w_data) = Ok (Some d) /\ learned_deps unit w_models (Some d)) /\
  (exists d, extract_trans_training_data unit tt ascii_udb [] [] (fun l => l) (map (map named) w_data) = Ok (Some d) /\ learned_trans unit w_models (Some d)) /\
  exists t, parser_call unit tt ascii_udb w_models [] [] 2 3 (map (map tt_token) w_data) = Ok (map (map tt_tag) w_data, [Some t; None]) /\ t_root t = 1 /\ t_parent t 2 = Some (ART, 3).
Proof.
  split; [exact w_models_ok|]. split; [|split; [|split; [|split]]].
  - intros t [<-|[<-|[]]]; (split; [|cbn; lia]); [apply C25_witness|apply w_go].
  - eexists. split; [vm_compute; reflexivity|]. intros c w y E i c' w' y' E1 E2 E3. injection E as <- <- <-.
    destruct i as [|[|[|i]]]; try discriminate; injection E1 as <-; injection E2 as <-; injection E3 as <-; vm_compute; reflexivity.
  - eexists. split; [vm_compute; reflexivity|]. intros t c w y E i t' c' w' y' E0 E1 E2 E3. injection E as <- <- <- <-.
    destruct i as [|[|[|i]]]; try discriminate; injection E0 as <-; injection E1 as <-; injection E2 as <-; injection E3 as <-; vm_compute; reflexivity.
  - eexists. split; [vm_compute; reflexivity|]. intros t d c w m1 m2 y E i t' d' c' w' m1' m2' y' E0 E1 E2 E3 E4 E5 E6. injection E as <- <- <- <- <- <- <-.
    destruct i as [|[|[|[|[|i]]]]]; try discriminate; injection E0 as <-; injection E1 as <-; injection E2 as <-; injection E3 as <-; injection E4 as <-; injection E5 as <-; injection E6 as <-; vm_compute; reflexivity.
  - eexists. split; [vm_compute; reflexivity|]. split; reflexivity.
Qed.

Print Assumptions C76_names.
Print Assumptions C76_unknown_name.
Print Assumptions C76_tags.
Print Assumptions C76_deps.
Print Assumptions C76_trans.
Print Assumptions C76_refused.
Print Assumptions C76_own_parent.
Print Assumptions C77_learned.
