(** C90: the views of a labelled sentence. *)
From Coq Require Import Ascii String.
From Coq Require Import List NArith ZArith Arith Bool Lia Sorted.
From Verif Require Import PyBase Regex MTree MLabelled MViews MTrain STree STok SLabelled STrain SLangModel LTree LParser LOracle LTrain LTokWords.
Import ListNotations.
Local Open Scope nat_scope.

Lemma index_at {A} (l : list A) i x : nth_error l i = Some x -> index l (Z.of_nat i) = Ok x /\ index l (Z.of_nat i - Z.of_nat (length l)) = Ok x.
Proof.
  intros E. assert (H : i < length l) by (apply nth_error_Some; congruence). unfold index. split.
  - destruct (Z.ltb_spec (Z.of_nat i) 0); [lia|]. destruct (Z.ltb_spec (Z.of_nat i) 0); [lia|]. destruct (Z.leb_spec (Z.of_nat (length l)) (Z.of_nat i)); [lia|].
    cbn [orb]. rewrite Nat2Z.id, E. reflexivity.
  - destruct (Z.ltb_spec (Z.of_nat i - Z.of_nat (length l)) 0); [|lia]. rewrite Z.sub_add.
    destruct (Z.ltb_spec (Z.of_nat i) 0); [lia|]. destruct (Z.leb_spec (Z.of_nat (length l)) (Z.of_nat i)); [lia|].
    cbn [orb]. rewrite Nat2Z.id, E. reflexivity.
Qed.
Lemma index_out {A} (l : list A) z : (z < - Z.of_nat (length l) \/ Z.of_nat (length l) <= z)%Z -> index l z = Err IndexError.
Proof.
  intros H. unfold index. destruct (Z.ltb_spec z 0).
  - destruct (Z.ltb_spec (z + Z.of_nat (length l)) 0); [reflexivity|lia].
  - destruct (Z.ltb_spec z 0); [lia|]. destruct (Z.leb_spec (Z.of_nat (length l)) z); [reflexivity|lia].
Qed.
Lemma loaded_form tuples l : rooted tuples -> make_labelled tuples = Ok l -> exists r,
  l = {| l_tokens := map tt_token tuples; l_tags := map tt_tag tuples; l_deps := map tt_dep tuples; l_tree := Some (tree_of r (gold tuples)) |}.
Proof.
  intros HR. destruct (find_rooted _ HR) as (r & t & Er & Et & EF). unfold make_labelled. rewrite EF. intros E. exists r.
  match type of E with context [foldM ?g _ _] => change g with read_gold in E end.
  destruct (foldM read_gold (new_tree r) (enumerate tuples)) as [tr|] eqn:E1; [|discriminate]. cbn [rbind] in E. injection E as <-.
  assert (HN : no_self tuples).
  { intros lab c Ha. assert (~ no_loop (gold tuples)).
    { intros H. apply gold_In in Ha. apply (proj1 (Forall_forall _ _) H) in Ha. cbn in Ha. congruence. }
    pose proof (load_self tuples HR H) as E. unfold make_labelled in E. rewrite EF in E.
    match type of E with context [foldM ?g _ _] => change g with read_gold in E end. rewrite E1 in E. discriminate. }
  rewrite (fold_gold_ok tuples r HN) in E1. injection E1 as <-. reflexivity.
Qed.

Lemma words_space U c t ws : u_space U c = true -> words_of U t ws -> words_of U (c :: t) ws.
Proof.
  intros Hc H. destruct H as [s H|s w rest ws Hs Hn Hw Hr H].
  - apply words_none. intros d [<-|Hd]; auto.
  - apply (words_next U (c :: s) w rest ws); auto. intros d [<-|Hd]; auto.
Qed.

(** A labelled sentence that has a ROOT shows the tokens it was made of, in order: iterating, its length, its items counted
    from either end, and its text; the valid indexes are those of the tokens that are not NODEP, in increasing order; a token
    is a leaf when no token hangs from it. *)
Theorem C90_views : forall tuples l, make_labelled tuples = Ok l -> (exists t, In t tuples /\ tt_dep t = ROOT) ->
  l_iter l = map tt_token tuples /\ l_len l = length tuples /\ l_str l = spaced (map tt_token tuples) /\
  (forall i t, nth_error tuples i = Some t ->
     l_getitem l (Z.of_nat i) = Ok (tt_token t) /\ l_getitem l (Z.of_nat i - Z.of_nat (length tuples)) = Ok (tt_token t)) /\
  (forall z, (z < - Z.of_nat (length tuples) \/ Z.of_nat (length tuples) <= z)%Z -> l_getitem l z = Err IndexError) /\
  StronglySorted lt (valid_idxs (l_deps l)) /\ (forall i, In i (valid_idxs (l_deps l)) <-> valid tuples i) /\
  exists tree, l_tree l = Some tree /\ forall i, is_leaf tree i = true <-> ~ exists label child, labelled_arc tuples (label, i, child).
Proof.
  intros tuples l E HR. destruct (loaded_form tuples l HR E) as (r & ->). unfold l_iter, l_len, l_str, l_getitem. cbn [l_tokens l_deps l_tree].
  split; [reflexivity|]. split; [apply map_length|]. split; [reflexivity|]. split; [|split; [|split; [|split]]].
  - intros i t Ei. rewrite <- (map_length tt_token tuples). apply index_at. rewrite nth_error_map, Ei. reflexivity.
  - intros z Hz. apply index_out. rewrite map_length. exact Hz.
  - rewrite valid_idxs_spec. apply in_tree_sorted.
  - intros i. rewrite valid_idxs_spec. apply in_tree_valid.
  - eexists. split; [reflexivity|]. intros i. unfold is_leaf.
    assert (H : forall lab c, In (lab, c) (t_children_of (tree_of r (gold tuples)) i) <-> labelled_arc tuples (lab, i, c)) by (intros lab c; rewrite In_children_of; apply gold_In).
    destruct (t_children_of (tree_of r (gold tuples)) i) as [|[lab c] cs].
    + split; [|reflexivity]. intros _ (lab & c & Ha). apply H in Ha. destruct Ha.
    + split; [discriminate|]. intros Hn. exfalso. apply Hn. exists lab, c. apply H. left. reflexivity.
Qed.
(** Without a ROOT the sentence is empty. *)
Theorem C90_rootless : forall tuples l, make_labelled tuples = Ok l -> ~ (exists t, In t tuples /\ tt_dep t = ROOT) ->
  l_iter l = [] /\ l_len l = 0 /\ l_str l = [] /\ (forall z, l_getitem l z = Err IndexError) /\ valid_idxs (l_deps l) = [] /\ l_tree l = None.
Proof.
  intros tuples l E HR. unfold make_labelled in E. rewrite (find_unrooted tuples HR) in E. injection E as <-. repeat split.
  intros z. apply index_out. cbn. lia.
Qed.
(** The text of a sentence is read back as its tokens, when no token is empty or contains whitespace. *)
Theorem C90_text : forall U tuples l, udb_ok U -> make_labelled tuples = Ok l ->
  (forall t, In t tuples -> tt_token t <> [] /\ forall c, In c (tt_token t) -> u_space U c = false) ->
  words_of U (l_str l) (l_iter l).
Proof.
  intros U tuples l HU E H. unfold l_str, l_iter.
  assert (HT : forall w, In w (l_tokens l) -> w <> [] /\ forall c, In c w -> u_space U c = false).
  { destruct (find (fun '(_, t) => dep_eqb (tt_dep t) ROOT) (enumerate tuples)) as [[r t]|] eqn:EF.
    - unfold make_labelled in E. rewrite EF in E. match type of E with rbind ?x _ = _ => destruct x; [|discriminate] end. cbn [rbind] in E. injection E as <-. cbn [l_tokens].
      intros w Hw. apply in_map_iff in Hw. destruct Hw as (x & <- & Hx). exact (H x Hx).
    - unfold make_labelled in E. rewrite EF in E. injection E as <-. intros w []. }
  clear E H. assert (Hsp : u_space U 32%N = true) by (rewrite (ok_space U HU) by reflexivity; reflexivity).
  induction (l_tokens l) as [|w ws IH]; [apply words_none; intros c []|].
  destruct (HT w (or_introl eq_refl)) as [Hn Hw]. specialize (IH (fun v Hv => HT v (or_intror Hv))).
  destruct ws as [|v ws].
  - cbn [join]. rewrite <- (app_nil_r w) at 1. apply (words_next U [] w [] []); [intros c []|exact Hn|exact Hw|discriminate|constructor; intros c []].
  - change (join (lit " ") (w :: v :: ws)) with (w ++ 32%N :: join (lit " ") (v :: ws)).
    apply (words_next U [] w (32%N :: join (lit " ") (v :: ws)) (v :: ws)); [intros c []|exact Hn|exact Hw|intros c r' Ec; injection Ec as <- _; exact Hsp|].
    apply words_space; assumption.
Qed.
Example C90_witness :
  let tuples := [ {| tt_token := lit "I"; tt_tag := PRON; tt_dep := SUBJ; tt_parent := 1 |}; {| tt_token := lit "eat"; tt_tag := VERB; tt_dep := ROOT; tt_parent := -1 |};
                  {| tt_token := lit "apples"; tt_tag := NOUN; tt_dep := OBJ; tt_parent := 1 |}; {| tt_token := lit "."; tt_tag := PUNCT; tt_dep := NODEP; tt_parent := -1 |} ] in
  exists l t, make_labelled tuples = Ok l /\ l_str l = lit "I eat apples ." /\ l_getitem l (-2)%Z = Ok (lit "apples") /\
    valid_idxs (l_deps l) = [0; 1; 2] /\ l_tree l = Some t /\ map (is_leaf t) [0; 1; 2; 3] = [true; false; true; true].
Proof. do 2 eexists. split; [vm_compute; reflexivity|]. split; [vm_compute; reflexivity|]. split; [vm_compute; reflexivity|]. split; [vm_compute; reflexivity|]. split; [reflexivity|vm_compute; reflexivity]. Qed.

Print Assumptions C90_views.
Print Assumptions C90_rootless.
Print Assumptions C90_text.
