(** Lemmas about text files. *)
From Coq Require Import Ascii String.
From Coq Require Import List NArith ZArith Arith Bool Lia.
From Verif Require Import PyBase Regex MUtils MTree MVector MNormal MFiles SVector SFiles LBase LText LUdb.
Import ListNotations.
Local Open Scope nat_scope.

(** * Lines *)
Lemma newlines_line l s : one_line l -> newlines (l ++ s) = l ++ newlines s.
Proof.
  intros [H1 H2]. induction l as [|c l IH]; [reflexivity|]. cbn [app].
  assert (E : N.eqb c 13 = false) by (apply N.eqb_neq; intros ->; apply H2; left; reflexivity).
  cbn [newlines]. rewrite E, IH; [reflexivity| |]; intros F; [apply H1|apply H2]; right; exact F.
Qed.
Lemma newlines_nl nl s : newline nl -> (nl = [13%N] -> forall s', s <> 10%N :: s') -> newlines (nl ++ s) = 10%N :: newlines s.
Proof.
  intros [->|[->| ->]] H; [reflexivity|reflexivity|]. cbn [app newlines N.eqb Pos.eqb]. destruct s as [|d s]; [reflexivity|].
  destruct (N.eqb_spec d 10) as [->|Hd]; [exfalso; exact (H eq_refl s eq_refl)|reflexivity].
Qed.
Lemma lines_nl l s : ~ In 10%N l -> lines (l ++ 10%N :: s) = (l ++ [10%N]) :: lines s.
Proof.
  intros H. induction l as [|c l IH]; [reflexivity|]. cbn [app lines].
  assert (E : N.eqb c 10 = false) by (apply N.eqb_neq; intros ->; apply H; left; reflexivity). rewrite E, IH by (intros F; apply H; right; exact F). reflexivity.
Qed.
Lemma lines_last l : l <> [] -> ~ In 10%N l -> lines l = [l].
Proof.
  intros Hn H. induction l as [|c l IH]; [congruence|]. cbn [lines].
  assert (E : N.eqb c 10 = false) by (apply N.eqb_neq; intros ->; apply H; left; reflexivity). rewrite E.
  destruct l as [|d l]; [reflexivity|]. rewrite IH; [reflexivity|discriminate|intros F; apply H; right; exact F].
Qed.
(** the lines of the model are those of the file, most with a newline at the end *)
Lemma file_lines_spec ls content : text_file ls content -> Forall2 (fun l m => m = l \/ m = l ++ [10%N]) ls (file_lines content).
Proof.
  unfold file_lines. induction 1 as [|l Hn Ho|l nl ls s Ho Hnl Hc H IH].
  - constructor.
  - rewrite <- (app_nil_r l) at 2. rewrite newlines_line by exact Ho. cbn [newlines]. rewrite app_nil_r, lines_last; [|exact Hn|apply Ho]. constructor; [left; reflexivity|constructor].
  - rewrite newlines_line, newlines_nl, lines_nl; [|apply Ho|exact Hnl|exact Hc|exact Ho]. constructor; [right; reflexivity|exact IH].
Qed.
Lemma text_file_exists content : exists ls, text_file ls content.
Proof.
  remember (length content) as n eqn:En. assert (Hn : length content <= n) by lia. clear En. revert content Hn. induction n as [|n IH]; intros content Hn.
  { destruct content; [exists []; constructor|cbn in Hn; lia]. }
  destruct content as [|c s]; [exists []; constructor|]. cbn in Hn.
  destruct (N.eqb_spec c 10) as [->|H10].
  { destruct (IH s ltac:(lia)) as [ls H]. exists ([] :: ls). change (10%N :: s) with ([] ++ [10%N] ++ s). constructor; [split; intros []|left; reflexivity|discriminate|exact H]. }
  destruct (N.eqb_spec c 13) as [->|H13].
  { destruct s as [|d s].
    - exists [[]]. change [13%N] with ([] ++ [13%N] ++ []). constructor; [split; intros []|right; right; reflexivity|discriminate|constructor].
    - destruct (N.eqb_spec d 10) as [->|Hd].
      + cbn in Hn. destruct (IH s ltac:(lia)) as [ls H]. exists ([] :: ls). change (13%N :: 10%N :: s) with ([] ++ [13%N; 10%N] ++ s).
        constructor; [split; intros []|right; left; reflexivity|discriminate|exact H].
      + destruct (IH (d :: s) ltac:(cbn in *; lia)) as [ls H]. exists ([] :: ls). change (13%N :: d :: s) with ([] ++ [13%N] ++ d :: s).
        constructor; [split; intros []|right; right; reflexivity|intros _ s'; congruence|exact H]. }
  destruct (IH s ltac:(lia)) as [ls H]. inversion H as [|l Hl Ho|l nl ls' s' Ho Hnl Hc H']; subst.
  - exists [[c]]. constructor; [discriminate|]. split; intros [F|[]]; congruence.
  - exists [c :: s]. constructor; [discriminate|]. destruct Ho. split; (intros [F|F]; [congruence|contradiction]).
  - exists ((c :: l) :: ls'). change (c :: l ++ nl ++ s') with ((c :: l) ++ nl ++ s'). constructor; [|assumption|assumption|assumption].
    destruct Ho. split; (intros [F|F]; [congruence|contradiction]).
Qed.
(** the lines are determined: reading back *)
Definition drop_nl (m : str) : str := match rev m with c :: r => if N.eqb c 10 then rev r else m | [] => m end.
Lemma drop_nl_ok l m : ~ In 10%N l -> m = l \/ m = l ++ [10%N] -> drop_nl m = l.
Proof.
  intros H [->| ->]; unfold drop_nl.
  - destruct (rev l) as [|c r] eqn:E; [reflexivity|]. destruct (N.eqb_spec c 10) as [->|]; [|reflexivity].
    exfalso. apply H. apply in_rev. rewrite E. left. reflexivity.
  - rewrite rev_app_distr. cbn. apply rev_involutive.
Qed.
Lemma text_file_one_line ls s : text_file ls s -> Forall one_line ls.
Proof. induction 1; auto. Qed.
Lemma text_file_unique ls ls' content : text_file ls content -> text_file ls' content -> ls = ls'.
Proof.
  intros H H'.
  assert (K : forall ls, text_file ls content -> ls = map drop_nl (file_lines content)).
  { clear. intros ls H. pose proof (file_lines_spec _ _ H) as F. pose proof (text_file_one_line _ _ H) as O. clear H. induction F as [|l m ls ms Hm F IH]; [reflexivity|].
    inversion O; subst. cbn. rewrite <- IH by assumption. f_equal. symmetry. apply drop_nl_ok; [apply H1|exact Hm]. }
  rewrite (K _ H), (K _ H'). reflexivity.
Qed.

(** * Stripping *)
Section Strip.
  Context (U : udb).
  Notation sp := (u_space U).
  Lemma lstrip_blank a s : blank U a -> lstrip sp (a ++ s) = lstrip sp s.
  Proof. induction 1 as [|c a Hc _ IH]; [reflexivity|]. cbn. rewrite Hc. exact IH. Qed.
  Lemma lstrip_head x : (forall c x', x = c :: x' -> sp c = false) -> lstrip sp x = x.
  Proof. intros H. destruct x as [|c x]; [reflexivity|]. cbn. rewrite (H c x eq_refl). reflexivity. Qed.
  Lemma trimmed_strip line x : trimmed U line x -> strip sp line = x.
  Proof.
    intros (a & b & -> & Ha & Hb & H1 & H2). unfold strip. rewrite lstrip_blank by exact Ha.
    assert (R : forall x b, blank U b -> (forall c x', x = c :: x' -> sp c = false) -> (forall c x', x = x' ++ [c] -> sp c = false) ->
                rev (lstrip sp (rev (lstrip sp (x ++ b)))) = x).
    { clear. intros x b Hb H1 H2. destruct x as [|c x].
      - cbn [app]. rewrite <- (app_nil_r b), lstrip_blank by exact Hb. reflexivity.
      - cbn [app lstrip]. rewrite (H1 c x eq_refl). rewrite app_comm_cons, rev_app_distr, lstrip_blank by (apply Forall_rev; exact Hb).
        rewrite lstrip_head; [apply rev_involutive|]. intros d y E. apply (H2 d (rev y)).
        rewrite <- (rev_involutive (c :: x)), E. reflexivity. }
    apply R; assumption.
  Qed.
  Lemma strip_trimmed line : trimmed U line (strip sp line).
  Proof.
    assert (L : forall s, exists a, s = a ++ lstrip sp s /\ blank U a /\ (forall c x', lstrip sp s = c :: x' -> sp c = false)).
    { induction s as [|c s (a & E & Ha & H)]; [exists []; split; [reflexivity|split; [constructor|discriminate]]|]. cbn. destruct (sp c) eqn:Ec.
      - exists (c :: a). split; [cbn; rewrite <- E; reflexivity|]. split; [constructor; assumption|exact H].
      - exists []. split; [reflexivity|]. split; [constructor|]. intros d x' F. injection F as <- _. exact Ec. }
    destruct (L line) as (a & E & Ha & H1). destruct (L (rev (lstrip sp line))) as (b & E2 & Hb & H2).
    unfold strip. exists a, (rev b). split; [|split; [exact Ha|split; [apply Forall_rev; exact Hb|split]]].
    - rewrite E at 1. f_equal. rewrite <- rev_app_distr, <- E2, rev_involutive. reflexivity.
    - intros c x' F. destruct (lstrip sp line) as [|d y] eqn:Ey; [cbn in F; discriminate|].
      assert (G : d :: y = (rev (lstrip sp (rev (d :: y)))) ++ rev b) by (rewrite <- rev_app_distr, <- E2, rev_involutive; reflexivity).
      rewrite F in G. injection G as -> _. apply (H1 c y eq_refl).
    - intros c x' F. apply (f_equal (@rev _)) in F. rewrite rev_involutive, rev_app_distr in F. cbn in F. exact (H2 _ _ F).
  Qed.
  Lemma trimmed_nl line x : sp 10%N = true -> trimmed U line x -> trimmed U (line ++ [10%N]) x.
  Proof.
    intros H (a & b & -> & Ha & Hb & H1). exists a, (b ++ [10%N]). split; [rewrite <- !app_assoc; reflexivity|]. split; [exact Ha|].
    split; [apply Forall_app; split; [exact Hb|constructor; [exact H|constructor]]|exact H1].
  Qed.
  Lemma strip_line l m : sp 10%N = true -> m = l \/ m = l ++ [10%N] -> strip sp m = strip sp l.
  Proof. intros H [->| ->]; [reflexivity|]. apply trimmed_strip, trimmed_nl; [exact H|apply strip_trimmed]. Qed.
  Lemma trimmed_iff line x : trimmed U line x <-> x = strip sp line.
  Proof. split; [intros H; symmetry; apply trimmed_strip; exact H|intros ->; apply strip_trimmed]. Qed.
End Strip.

(** * Columns *)
Lemma split_chr_none c s : ~ In c s -> split_chr c s = [s].
Proof.
  induction s as [|d s IH]; intros H; [reflexivity|]. cbn. destruct (N.eqb_spec d c) as [->|Hd]; [exfalso; apply H; left; reflexivity|].
  rewrite IH by (intros F; apply H; right; exact F). reflexivity.
Qed.
Lemma split_chr_app c s t : ~ In c s -> split_chr c (s ++ c :: t) = s :: split_chr c t.
Proof.
  induction s as [|d s IH]; intros H; cbn; [rewrite N.eqb_refl; reflexivity|]. destruct (N.eqb_spec d c) as [->|Hd]; [exfalso; apply H; left; reflexivity|].
  rewrite IH by (intros F; apply H; right; exact F). reflexivity.
Qed.
Lemma split_chr_first c s w ws : split_chr c s = w :: ws -> ~ In c w /\ (ws = [] /\ s = w \/ exists t, s = w ++ c :: t /\ split_chr c t = ws).
Proof.
  revert w ws. induction s as [|d s IH]; intros w ws; cbn; [intros E; injection E as <- <-; split; [intros []|left; auto]|].
  destruct (N.eqb_spec d c) as [->|Hd]; [intros E; injection E as <- <-; split; [intros []|right; exists s; auto]|].
  destruct (split_chr c s) as [|w' ws'] eqn:E.
  - intros F. injection F as <- <-. exfalso. clear -E. revert E. destruct s as [|x s]; cbn; [discriminate|]. destruct (N.eqb x c); [discriminate|]. destruct (split_chr c s); discriminate.
  - intros F. injection F as <- <-. destruct (IH _ _ eq_refl) as [H [[-> ->]|(t & -> & Ht)]].
    + split; [intros [F|F]; [congruence|contradiction]|left; auto].
    + split; [intros [F|F]; [congruence|contradiction]|right; exists t; auto].
Qed.
Lemma unpack_spec x k v : unpack_pair (split_chr 9%N x) = Ok (k, v) <-> x = k ++ 9%N :: v /\ ~ In 9%N k /\ ~ In 9%N v.
Proof.
  split.
  - destruct (split_chr 9%N x) as [|a [|b [|]]] eqn:E; try discriminate. intros F. injection F as -> ->.
    destruct (split_chr_first _ _ _ _ E) as [H [[F _]|(t & -> & Ht)]]; [discriminate|].
    destruct (split_chr_first _ _ _ _ Ht) as [H' [[_ ->]|(t' & _ & F)]].
    + auto.
    + exfalso. clear -F. revert F. destruct t' as [|x s]; cbn; [discriminate|]. destruct (N.eqb x 9); [discriminate|]. destruct (split_chr 9%N s); discriminate.
  - intros (-> & H1 & H2). rewrite split_chr_app by exact H1. rewrite split_chr_none by exact H2. reflexivity.
Qed.
Lemma unpack_err l e : unpack_pair l = Err e -> e = ValueError.
Proof. destruct l as [|a [|b [|]]]; cbn; congruence. Qed.

Lemma NoDup_add_last {A} (l : list A) x : NoDup l -> ~ In x l -> NoDup (l ++ [x]).
Proof.
  intros H Hx. induction H as [|y l Hy H IH]; cbn; [repeat constructor; intros []|]. constructor; [|apply IH; intros F; apply Hx; right; exact F].
  rewrite in_app_iff. intros [F|[<-|[]]]; [contradiction|apply Hx; left; reflexivity].
Qed.
Section Load.
  Context (U : udb) (OK : udb_ok U).
  Notation sp := (u_space U).
  Lemma sp10 : sp 10%N = true.
  Proof. rewrite (ok_space U OK) by lia. reflexivity. Qed.
  Definition row (line : str) : res (str * str) := unpack_pair (split_chr 9%N (strip sp line)).
  Lemma row_spec line k v : row line = Ok (k, v) <-> two_columns U line k v.
  Proof.
    unfold row, two_columns. rewrite unpack_spec, trimmed_iff. split.
    - intros (E & H1 & H2). rewrite E. auto.
    - intros (H1 & H2 & E). rewrite <- E. auto.
  Qed.
  Lemma rows_eq ls content : text_file ls content ->
    load_dict_from_txt_file U content = (let! pairs := mapM row ls in Ok (fold_left (fun d '(key, value) => dset str_eqb key value d) pairs [])).
  Proof.
    intros H. unfold load_dict_from_txt_file. cbv zeta. f_equal.
    pose proof (file_lines_spec _ _ H) as F. clear H. induction F as [|l m ls ms Hm F IH]; [reflexivity|].
    cbn [map mapM]. rewrite IH. unfold row at 2. rewrite (strip_line U l m sp10 Hm). reflexivity.
  Qed.
  Lemma set_eq ls content : text_file ls content ->
    load_set_from_txt_file U content = fold_left (fun s line => let x := strip sp line in if str_in x s then s else s ++ [x]) ls [].
  Proof.
    intros H. unfold load_set_from_txt_file. pose proof (file_lines_spec _ _ H) as F. clear H. set (f := fun (s : list str) (line : str) => _).
    generalize (@nil str). induction F as [|l m ls ms Hm F IH]; intros s; [reflexivity|].
    cbn [fold_left]. replace (f s m) with (f s l); [apply IH|]. unfold f. cbv zeta. rewrite (strip_line U l m sp10 Hm). reflexivity.
  Qed.
  Lemma set_spec ls : forall s, NoDup s -> NoDup (fold_left (fun s line => let x := strip sp line in if str_in x s then s else s ++ [x]) ls s) /\
    (forall x, In x (fold_left (fun s line => let x := strip sp line in if str_in x s then s else s ++ [x]) ls s) <-> In x s \/ exists l, In l ls /\ x = strip sp l).
  Proof.
    induction ls as [|l ls IH]; intros s Hs; cbn [fold_left].
    - split; [exact Hs|]. intros x. split; [auto|intros [H|(l & [] & _)]; exact H].
    - cbv zeta. destruct (str_in (strip sp l) s) eqn:E.
      + destruct (IH s Hs) as [H1 H2]. split; [exact H1|]. intros x. rewrite H2. split.
        * intros [H|(l' & H & Ex)]; [auto|right; exists l'; split; [right; exact H|exact Ex]].
        * intros [H|(l' & [->|H] & Ex)]; [auto| |right; exists l'; auto]. left. subst x.
          unfold str_in in E. apply existsb_exists in E. destruct E as (y & Hy & Ey). apply str_eqb_ok in Ey. subst y. exact Hy.
      + assert (Hn : ~ In (strip sp l) s).
        { intros F. assert (T : str_in (strip sp l) s = true) by (apply existsb_exists; eexists; split; [exact F|apply str_eqb_ok; reflexivity]). congruence. }
        destruct (IH (s ++ [strip sp l])) as [H1 H2]; [apply NoDup_add_last; assumption|]. split; [exact H1|]. intros x. rewrite H2, in_app_iff. cbn. split.
        * intros [[H|[<-|[]]]|(l' & H & Ex)]; [auto|right; exists l; auto|right; exists l'; auto].
        * intros [H|(l' & [->|H] & Ex)]; [auto|left; right; left; symmetry; exact Ex|right; exists l'; auto].
  Qed.
  (** the last one wins *)
  Lemma dset_fold (pairs : list (str * str)) : forall d : dict str str, NoDup (dkeys d) ->
    let r := fold_left (fun d '(key, value) => dset str_eqb key value d) pairs d in
    NoDup (dkeys r) /\ forall k v, dget str_eqb k r = Some v <->
      (exists p1 p2, pairs = p1 ++ (k, v) :: p2 /\ ~ In k (map fst p2)) \/ (~ In k (map fst pairs) /\ dget str_eqb k d = Some v).
  Proof.
    induction pairs as [|[k0 v0] pairs IH]; intros d Hd; cbv zeta; cbn [fold_left].
    - split; [exact Hd|]. intros k v. split; [intros H; right; split; [intros []|exact H]|]. intros [(p1 & p2 & F & _)|[_ H]]; [destruct p1; discriminate|exact H].
    - destruct (IH (dset str_eqb k0 v0 d) (NoDup_dset str_eqb str_eqb_ok _ _ _ Hd)) as [H1 H2]. cbv zeta in H1, H2. split; [exact H1|]. intros k v. rewrite H2. cbn [map fst]. split.
      + intros [(p1 & p2 & -> & Hn)|[Hn H]]; [left; exists ((k0, v0) :: p1), p2; auto|].
        rewrite (dget_dset str_eqb str_eqb_ok) in H. destruct (str_eqb k k0) eqn:E.
        * apply str_eqb_ok in E. subst k0. injection H as ->. left. exists [], pairs. auto.
        * right. split; [|exact H]. intros [F|F]; [subst k0|contradiction]. rewrite (proj2 (str_eqb_ok k k) eq_refl) in E. discriminate.
      + intros [(p1 & p2 & E & Hn)|[Hn H]].
        * destruct p1 as [|q p1]; [injection E as -> -> ->|injection E as <- ->; left; exists p1, p2; auto]. right. split; [exact Hn|]. rewrite (dget_dset str_eqb str_eqb_ok), (proj2 (str_eqb_ok k k) eq_refl). reflexivity.
        * right. split; [intros F; apply Hn; right; exact F|]. rewrite (dget_dset_other str_eqb str_eqb_ok); [exact H|]. intros ->. apply Hn. left. reflexivity.
  Qed.
  Lemma mapM_rows ls pairs : mapM row ls = Ok pairs -> Forall2 (fun l p => two_columns U l (fst p) (snd p)) ls pairs.
  Proof.
    revert pairs. induction ls as [|l ls IH]; intros pairs; cbn.
    - intros E. injection E as <-. constructor.
    - destruct (row l) as [[k v]|e] eqn:E; cbn; [|discriminate]. destruct (mapM row ls) as [ps|e]; cbn; [|discriminate]. intros F. injection F as <-.
      constructor; [apply row_spec; exact E|auto].
  Qed.
  Lemma mapM_rows_ok ls : (forall l, In l ls -> exists k v, two_columns U l k v) -> exists pairs, mapM row ls = Ok pairs.
  Proof.
    induction ls as [|l ls IH]; intros H; [exists []; reflexivity|]. destruct (H l) as (k & v & R); [left; reflexivity|]. apply row_spec in R.
    destruct IH as [ps E]; [intros; apply H; right; assumption|]. exists ((k, v) :: ps). cbn. rewrite R, E. reflexivity.
  Qed.
  Lemma mapM_rows_err ls : (exists l, In l ls /\ forall k v, ~ two_columns U l k v) -> mapM row ls = Err ValueError.
  Proof.
    intros (l & Hin & H). induction ls as [|l' ls IH]; [destruct Hin|]. cbn. destruct (row l') as [[k v]|e] eqn:E; cbn.
    - destruct Hin as [->|Hin]; [exfalso; apply (H k v), row_spec; exact E|]. rewrite (IH Hin). reflexivity.
    - apply unpack_err in E. congruence.
  Qed.
  Lemma two_columns_fun l k v k' v' : two_columns U l k v -> two_columns U l k' v' -> k = k' /\ v = v'.
  Proof. intros H H'. apply row_spec in H. apply row_spec in H'. rewrite H in H'. injection H' as -> ->. auto. Qed.
End Load.

(** * Words of a line *)
Section Words.
  Context (U : udb).
  Notation sp := (u_space U).
  Lemma split_ws_blank a s : blank U a -> split_ws sp (a ++ s) = split_ws sp s.
  Proof. induction 1 as [|c a Hc _ IH]; [reflexivity|]. cbn [app]. rewrite split_ws_cons_space by exact Hc. exact IH. Qed.
  Lemma line_words_split s ws : line_words U s ws -> split_ws sp s = ws.
  Proof.
    induction 1 as [s H|a w Ha Hn Hw|a w c s ws Ha Hn Hw Hc H IH].
    - rewrite <- (app_nil_r s), split_ws_blank by exact H. reflexivity.
    - rewrite split_ws_blank by exact Ha. apply split_ws_word; assumption.
    - rewrite split_ws_blank by exact Ha. rewrite split_ws_app_space by exact Hc. rewrite split_ws_word by assumption. rewrite IH. reflexivity.
  Qed.
  Lemma line_words_exists s : exists ws, line_words U s ws.
  Proof.
    remember (length s) as n eqn:En. assert (Hn : length s <= n) by lia. clear En. revert s Hn. induction n as [|n IH]; intros s Hn.
    { destruct s; [exists []; constructor; constructor|cbn in Hn; lia]. }
    assert (L : forall s, exists a r, s = a ++ r /\ blank U a /\ (r = [] \/ exists c r', r = c :: r' /\ sp c = false)).
    { clear. induction s as [|c s (a & r & -> & Ha & Hr)]; [exists [], []; repeat split; auto; constructor|]. destruct (sp c) eqn:E.
      - exists (c :: a), r. split; [reflexivity|]. split; [constructor; assumption|exact Hr].
      - exists [], (c :: a ++ r). split; [reflexivity|]. split; [constructor|right; eauto]. }
    assert (W : forall s, exists w r, s = w ++ r /\ Forall (fun c => sp c = false) w /\ (r = [] \/ exists c r', r = c :: r' /\ sp c = true)).
    { clear. induction s as [|c s (a & r & -> & Ha & Hr)]; [exists [], []; repeat split; auto|]. destruct (sp c) eqn:E.
      - exists [], (c :: a ++ r). split; [reflexivity|]. split; [constructor|right; eauto].
      - exists (c :: a), r. split; [reflexivity|]. split; [constructor; assumption|exact Hr]. }
    destruct (L s) as (a & r & -> & Ha & [->|(c & r' & -> & Hc)]); [exists []; rewrite app_nil_r; constructor; exact Ha|].
    destruct (W (c :: r')) as (w & q & E & Hw & Hq). assert (w <> []).
    { intros ->. cbn in E. subst q. destruct Hq as [F|(d & q' & F & Hd)]; [discriminate|]. injection F as <- <-. congruence. }
    rewrite E. destruct Hq as [->|(d & q' & -> & Hd)].
    - exists [w]. rewrite app_nil_r. constructor; assumption.
    - destruct (IH q') as [ws Hws].
      { apply (f_equal (@length _)) in E. rewrite app_length in Hn, E. cbn [length] in Hn, E. unfold str, char in *. lia. }
      exists (w :: ws). constructor; assumption.
  Qed.
  Lemma line_words_iff s ws : line_words U s ws <-> split_ws sp s = ws.
  Proof. split; [apply line_words_split|]. intros <-. destruct (line_words_exists s) as [ws H]. rewrite (line_words_split _ _ H). exact H. Qed.
  Lemma split_line l m : sp 10%N = true -> m = l \/ m = l ++ [10%N] -> split_ws sp m = split_ws sp l.
  Proof. intros H [->| ->]; [reflexivity|]. rewrite split_ws_app_space by exact H. change (split_ws sp []) with (@nil str). apply app_nil_r. Qed.
End Words.

(** * Files in ASCII are read alike with every character database *)
Lemma newlines_in c s : In c (newlines s) -> In c s \/ c = 10%N.
Proof.
  remember (length s) as n eqn:En. assert (Hn : length s <= n) by lia. clear En. revert s Hn. induction n as [|n IH]; intros s Hn.
  { destruct s; [intros []|cbn in Hn; lia]. }
  destruct s as [|d s]; [intros []|]. cbn [newlines]. cbn in Hn. destruct (N.eqb d 13).
  - destruct s as [|e s]; [intros [<-|[]]; auto|]. cbn in Hn. destruct (N.eqb e 10).
    + intros [<-|H]; [auto|]. destruct (IH s ltac:(lia) H); [left; right; right; assumption|auto].
    + intros [<-|H]; [auto|]. destruct (IH (e :: s) ltac:(cbn; lia) H); [left; right; assumption|auto].
  - intros [<-|H]; [left; left; reflexivity|]. destruct (IH s ltac:(lia) H); [left; right; assumption|auto].
Qed.
Lemma lines_in c s l : In l (lines s) -> In c l -> In c s.
Proof.
  revert l. induction s as [|d s IH]; intros l; [intros []|]. cbn [lines]. destruct (N.eqb d 10).
  - intros [<-|H] Hc; [destruct Hc as [<-|[]]; left; reflexivity|right; eapply IH; eauto].
  - destruct (lines s) as [|l' ls]; [intros [<-|[]] [<-|[]]; left; reflexivity|]. intros [<-|H] Hc.
    + destruct Hc as [<-|Hc]; [left; reflexivity|right; apply (IH l'); [left; reflexivity|exact Hc]].
    + right. apply (IH l); [right; exact H|exact Hc].
Qed.
Lemma lstrip_ext sp sp' s : (forall c, In c s -> sp c = sp' c) -> lstrip sp s = lstrip sp' s.
Proof.
  induction s as [|c s IH]; intros H; [reflexivity|]. cbn. rewrite (H c (or_introl eq_refl)). destruct (sp' c); [apply IH; intros; apply H; right; assumption|reflexivity].
Qed.
Lemma lstrip_in sp s c : In c (lstrip sp s) -> In c s.
Proof. induction s as [|d s IH]; [intros []|]. cbn. destruct (sp d); [intros H; right; auto|auto]. Qed.
Lemma strip_ext sp sp' s : (forall c, In c s -> sp c = sp' c) -> strip sp s = strip sp' s.
Proof.
  intros H. unfold strip. rewrite (lstrip_ext sp sp' s H). rewrite (lstrip_ext sp sp'); [reflexivity|]. intros c Hc. apply H. apply in_rev in Hc. eapply lstrip_in. exact Hc.
Qed.
Lemma load_dict_ascii U content : udb_ok U -> forallb (fun c => N.ltb c 128) content = true ->
  load_dict_from_txt_file U content = load_dict_from_txt_file ascii_udb content.
Proof.
  intros OK H. unfold load_dict_from_txt_file. cbv zeta. do 2 f_equal. apply map_ext_in. intros l Hl. f_equal. apply strip_ext. intros c Hc.
  assert (Hb : (c < 128)%N).
  { destruct (newlines_in c content) as [F| ->]; [exact (lines_in _ _ _ Hl Hc)|rewrite forallb_forall in H; apply N.ltb_lt, H; exact F|lia]. }
  rewrite (ok_space U OK) by exact Hb. symmetry. apply (ok_space ascii_udb ascii_udb_ok). exact Hb.
Qed.

(** * Word vectors *)
Section Vec.
  Context (U : udb) (OK : udb_ok U) (V : Type) (float32 : str -> res V) (has : str -> bool).
  Notation sp := (u_space U).
  Definition wstep (ws : wordset V) (line : str) : res (wordset V) :=
    let values := split_ws sp line in
    let! word := index values 0 in
    let wordvec := slice (Some 1%Z) None values in
    if has word then let! vector := mapM float32 wordvec in Ok (dset str_eqb word vector ws) else Ok ws.
  Lemma save_eq ls content : text_file ls content -> wordset_save U V float32 has content = foldM wstep [] ls.
  Proof.
    intros H. unfold wordset_save. change (foldM wstep [] (file_lines content) = foldM wstep [] ls).
    pose proof (file_lines_spec _ _ H) as F. clear H. generalize (@nil (str * list V)). induction F as [|l m ls ms Hm F IH]; intros ws; [reflexivity|].
    cbn [foldM]. replace (wstep ws m) with (wstep ws l).
    - destruct (wstep ws l); cbn; [apply IH|reflexivity].
    - unfold wstep. rewrite (split_line U l m (sp10 U OK) Hm). reflexivity.
  Qed.
  Lemma wstep_words ws line word nums : line_words U line (word :: nums) ->
    wstep ws line = if has word then let! vector := mapM float32 nums in Ok (dset str_eqb word vector ws) else Ok ws.
  Proof.
    intros H. apply line_words_split in H. unfold wstep. cbv zeta. rewrite H.
    assert (E : slice (Some 1%Z) None (word :: nums) = nums) by (change 1%Z with (Z.of_nat 1); rewrite slice_from; reflexivity). rewrite E. reflexivity.
  Qed.
  Lemma wstep_blank ws line : blank U line -> wstep ws line = Err IndexError.
  Proof. intros H. unfold wstep. rewrite (line_words_split U line []) by (constructor; exact H). reflexivity. Qed.
  Notation vline := (vector_line U V float32 has).
  Notation oline := (other_line U has).
  Lemma mapM_Forall2 {A B} (f : A -> res B) l r : mapM f l = Ok r <-> Forall2 (fun x y => f x = Ok y) l r.
  Proof.
    split.
    - revert r. induction l as [|x l IH]; intros r; cbn; [intros E; injection E as <-; constructor|].
      destruct (f x) eqn:E; cbn; [|discriminate]. destruct (mapM f l); cbn; [|discriminate]. intros F. injection F as <-. constructor; auto.
    - induction 1 as [|x y l r E H IH]; [reflexivity|]. cbn. rewrite E, IH. reflexivity.
  Qed.
  Lemma wstep_vector ws l word vector : vline l word vector -> wstep ws l = Ok (dset str_eqb word vector ws).
  Proof. intros (nums & H1 & H2 & H3). rewrite (wstep_words _ _ _ _ H1), H2, (proj2 (mapM_Forall2 _ _ _) H3). reflexivity. Qed.
  Lemma wstep_other ws l : oline l -> wstep ws l = Ok ws.
  Proof. intros (w & nums & H1 & H2). rewrite (wstep_words _ _ _ _ H1), H2. reflexivity. Qed.
  Lemma vline_fun l w v w' v' : vline l w v -> vline l w' v' -> w = w' /\ v = v'.
  Proof.
    intros (n & H1 & _ & H3) (n' & H1' & _ & H3'). apply line_words_split in H1, H1'. rewrite H1 in H1'. injection H1' as <- <-. split; [reflexivity|].
    apply mapM_Forall2 in H3, H3'. rewrite H3 in H3'. injection H3' as <-. reflexivity.
  Qed.
  Lemma vline_oline l w v : vline l w v -> oline l -> False.
  Proof. intros (n & H1 & H2 & _) (w' & n' & H1' & H2'). apply line_words_split in H1, H1'. rewrite H1 in H1'. injection H1' as <- <-. congruence. Qed.
  Definition good_line l := (exists word vector, vline l word vector) \/ oline l.
  Lemma vec_fold ls : forall ws, NoDup (dkeys ws) -> (forall l, In l ls -> good_line l) ->
    exists ws', foldM wstep ws ls = Ok ws' /\ NoDup (dkeys ws') /\
      (forall w v, dget str_eqb w ws' = Some v <->
         (exists b l a, ls = b ++ l :: a /\ vline l w v /\ forall l' v', In l' a -> ~ vline l' w v') \/
         ((forall l v', In l ls -> ~ vline l w v') /\ dget str_eqb w ws = Some v)) /\
      (forall w, In w (dkeys ws') <-> In w (dkeys ws) \/ exists l v, In l ls /\ vline l w v).
  Proof.
    induction ls as [|l ls IH]; intros ws HN HG.
    - exists ws. split; [reflexivity|]. split; [exact HN|]. split.
      + intros w v. split; [intros H; right; split; [intros l v' []|exact H]|]. intros [(b & l & a & F & _)|[_ H]]; [destruct b; discriminate|exact H].
      + intros w. split; [auto|intros [H|(l & v & [] & _)]; exact H].
    - assert (HG' : forall l, In l ls -> good_line l) by (intros; apply HG; right; assumption).
      destruct (HG l (or_introl eq_refl)) as [(word & vector & HV)|HO]; cbn [foldM].
      + rewrite (wstep_vector _ _ _ _ HV). cbn [rbind]. destruct (IH (dset str_eqb word vector ws) (NoDup_dset str_eqb str_eqb_ok _ _ _ HN) HG') as (ws' & E & H1 & H2 & H3).
        exists ws'. split; [exact E|]. split; [exact H1|]. split.
        * intros w v. rewrite H2. split.
          -- intros [(b & l0 & a & -> & Hl & Hn)|[Hn H]]; [left; exists (l :: b), l0, a; auto|]. rewrite (dget_dset str_eqb str_eqb_ok) in H. destruct (str_eqb w word) eqn:Ew.
             ++ apply str_eqb_ok in Ew. subst word. injection H as ->. left. exists [], l, ls. auto.
             ++ right. split; [|exact H]. intros l0 v' [<-|Hl0]; [|apply Hn; exact Hl0]. intros F. destruct (vline_fun _ _ _ _ _ HV F) as [-> _].
                rewrite (proj2 (str_eqb_ok w w) eq_refl) in Ew. discriminate.
          -- intros [(b & l0 & a & E0 & Hl & Hn)|[Hn H]].
             ++ destruct b as [|x b]; [injection E0 as <- <-|injection E0 as <- ->; left; exists b, l0, a; auto].
                destruct (vline_fun _ _ _ _ _ HV Hl) as [-> ->]. right. split; [exact Hn|]. rewrite (dget_dset str_eqb str_eqb_ok), (proj2 (str_eqb_ok w w) eq_refl). reflexivity.
             ++ right. split; [intros l0 v' Hl0; apply Hn; right; exact Hl0|]. rewrite (dget_dset_other str_eqb str_eqb_ok); [exact H|]. intros ->. exact (Hn l vector (or_introl eq_refl) HV).
        * intros w. rewrite H3, (In_dkeys_dset str_eqb str_eqb_ok). split.
          -- intros [[->|H]|(l0 & v & Hl0 & HV0)]; [right; exists l, vector; split; [left; reflexivity|exact HV]|auto|right; exists l0, v; split; [right; exact Hl0|exact HV0]].
          -- intros [H|(l0 & v & [<-|Hl0] & HV0)]; [auto| |right; eauto]. left. left. exact (proj1 (vline_fun _ _ _ _ _ HV0 HV)).
      + rewrite (wstep_other _ _ HO). cbn [rbind]. destruct (IH ws HN HG') as (ws' & E & H1 & H2 & H3). exists ws'. split; [exact E|]. split; [exact H1|]. split.
        * intros w v. rewrite H2. split.
          -- intros [(b & l0 & a & -> & Hl & Hn)|[Hn H]]; [left; exists (l :: b), l0, a; auto|]. right. split; [|exact H].
             intros l0 v' [<-|Hl0] F; [exact (vline_oline _ _ _ F HO)|exact (Hn _ _ Hl0 F)].
          -- intros [(b & l0 & a & E0 & Hl & Hn)|[Hn H]].
             ++ destruct b as [|x b]; [injection E0 as <- <-; exfalso; exact (vline_oline _ _ _ Hl HO)|injection E0 as <- ->; left; exists b, l0, a; auto].
             ++ right. split; [intros l0 v' Hl0; apply Hn; right; exact Hl0|exact H].
        * intros w. rewrite H3. split.
          -- intros [H|(l0 & v & Hl0 & HV0)]; [auto|right; exists l0, v; split; [right; exact Hl0|exact HV0]].
          -- intros [H|(l0 & v & [<-|Hl0] & HV0)]; [auto|exfalso; exact (vline_oline _ _ _ HV0 HO)|right; eauto].
  Qed.
  Lemma vec_prefix b l a ws : (forall l', In l' b -> good_line l') -> exists ws', foldM wstep ws (b ++ l :: a) = (let! x := wstep ws' l in foldM wstep x a).
  Proof.
    revert ws. induction b as [|l0 b IH]; intros ws HG; [exists ws; reflexivity|]. cbn [app foldM].
    destruct (HG l0 (or_introl eq_refl)) as [(word & vector & HV)|HO]; [rewrite (wstep_vector _ _ _ _ HV)|rewrite (wstep_other _ _ HO)]; cbn [rbind]; apply IH; intros; apply HG; right; assumption.
  Qed.
  Lemma mapM_first_err {A B} (f : A -> res B) l1 x l2 e : Forall (fun x => exists v, f x = Ok v) l1 -> f x = Err e -> mapM f (l1 ++ x :: l2) = Err e.
  Proof. intros H E. induction H as [|y l1 [v Hv] H IH]; cbn; [rewrite E; reflexivity|]. rewrite Hv, IH. reflexivity. Qed.
End Vec.
Lemma vectors_ok : forall U V v0 float32 has_ngram content ls, udb_ok U -> text_file ls content ->
  (forall l, In l ls -> (exists word vector, vector_line U V float32 has_ngram l word vector) \/ other_line U has_ngram l) ->
  exists ws, wordset_save U V float32 has_ngram content = Ok ws /\
    (forall word vector before l after, ls = before ++ l :: after -> vector_line U V float32 has_ngram l (lower U word) vector ->
       (forall l' vector', In l' after -> ~ vector_line U V float32 has_ngram l' (lower U word) vector') -> word_vector V v0 U ws word = vector) /\
    (forall word, (forall l vector, In l ls -> ~ vector_line U V float32 has_ngram l (lower U word) vector) -> word_vector V v0 U ws word = repeat v0 100) /\
    (exists words, NoDup words /\ (forall w, In w words <-> exists l vector, In l ls /\ vector_line U V float32 has_ngram l w vector) /\
       wordset_len V ws = length words + 1) /\
    ((forall l word vector, In l ls -> vector_line U V float32 has_ngram l word vector -> length vector = 100) -> ws_ok V ws).
Proof.
  intros U V v0 fl has content ls OK HF HG. rewrite (save_eq U OK V fl has ls content HF).
  destruct (vec_fold U V fl has ls [] (NoDup_nil _) HG) as (ws & E & H1 & H2 & H3). exists ws. split; [exact E|]. split; [|split; [|split]].
  - intros word vector b l a -> HV Hn. unfold word_vector. rewrite (proj2 (H2 (lower U word) vector)); [reflexivity|]. left. exists b, l, a. auto.
  - intros word Hn. unfold word_vector. destruct (dget str_eqb (lower U word) ws) as [v|] eqn:Ev; [|reflexivity]. apply H2 in Ev.
    destruct Ev as [(b & l & a & -> & HV & _)|[_ F]]; [|discriminate]. exfalso. exact (Hn l v (in_elt _ _ _) HV).
  - exists (dkeys ws). split; [exact H1|]. split; [|unfold wordset_len, dkeys; rewrite map_length; reflexivity]. intros w. rewrite H3. split; [intros [[]|H]; exact H|auto].
  - intros HL w v Hin. apply (In_dget str_eqb str_eqb_ok _ _ _ H1), H2 in Hin. destruct Hin as [(b & l & a & -> & HV & _)|[_ F]]; [|discriminate].
    exact (HL l w v (in_elt _ _ _) HV).
Qed.
Lemma vectors_refused : forall U V float32 has_ngram content before l after, udb_ok U -> text_file (before ++ l :: after) content ->
  (forall l', In l' before -> (exists word vector, vector_line U V float32 has_ngram l' word vector) \/ other_line U has_ngram l') ->
  (blank U l -> wordset_save U V float32 has_ngram content = Err IndexError) /\
  (forall word nums1 n nums2 e, line_words U l (word :: nums1 ++ n :: nums2) -> has_ngram word = true -> Forall (fun x => exists v, float32 x = Ok v) nums1 ->
     float32 n = Err e -> wordset_save U V float32 has_ngram content = Err e).
Proof.
  intros U V fl has content b l a OK HF HG. rewrite (save_eq U OK V fl has _ content HF). destruct (vec_prefix U V fl has b l a [] HG) as [ws E]. rewrite E. split.
  - intros Hb. rewrite (wstep_blank U V fl has ws l Hb). reflexivity.
  - intros word n1 n n2 e Hw Hh Hok He. rewrite (wstep_words U V fl has ws l _ _ Hw), Hh, (mapM_first_err fl n1 n n2 e Hok He). reflexivity.
Qed.
