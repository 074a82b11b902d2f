(** Modified Kneser-Ney: the recursion over the orders computes the value of the specification for every ngram. *)
From Coq Require Import Ascii String.
From Coq Require Import List NArith ZArith QArith Qminmax Arith Bool Lia.
From Verif Require Import PyBase Regex MUtils SUtils LBase LText LUtils LRanges MNgram SLangModel LNgram LLangModel MSmooth LSmooth LCorpus LMkn.
Import ListNotations.
Local Open Scope nat_scope.

Lemma mapM_bind {A B C} (f : A -> res B) (g : B -> res C) l xs : mapM f l = Ok xs -> mapM (fun i => let! x := f i in g x) l = mapM g xs.
Proof.
  revert xs. induction l as [|a l IH]; intros xs H; cbn [mapM] in *; [injection H as <-; reflexivity|].
  destruct (f a) as [b|]; [|discriminate]. cbn [rbind] in *. destruct (mapM f l) as [bs|]; [|discriminate]. cbn [rbind] in H. injection H as <-.
  cbn [mapM]. rewrite (IH bs eq_refl). reflexivity.
Qed.
Lemma mapM_all {A B} (f : A -> res B) (g : A -> B) l : (forall x, In x l -> f x = Ok (g x)) -> mapM f l = Ok (map g l).
Proof. induction l as [|a l IH]; intros H; [reflexivity|]. cbn [mapM map]. rewrite H by (left; reflexivity). cbn [rbind]. rewrite IH; [reflexivity|]. intros x Hx. apply H. right. exact Hx. Qed.
Lemma mapM_F2 {A B} (f : A -> res B) l xs : mapM f l = Ok xs -> Forall2 (fun a b => f a = Ok b) l xs.
Proof.
  revert xs. induction l as [|a l IH]; intros xs H; cbn [mapM] in H; [injection H as <-; constructor|].
  destruct (f a) as [b|] eqn:E; [|discriminate]. cbn [rbind] in H. destruct (mapM f l) as [bs|]; [|discriminate]. cbn [rbind] in H. injection H as <-. constructor; auto.
Qed.
Lemma F2_mapM {A B} (f : A -> res B) l xs : Forall2 (fun a b => f a = Ok b) l xs -> mapM f l = Ok xs.
Proof. induction 1 as [|a b l xs H _ IH]; [reflexivity|]. cbn [mapM]. rewrite H. cbn [rbind]. rewrite IH. reflexivity. Qed.
Lemma concat_map_inv {A B} (f : A -> B) (ls : list (list B)) : forall l, concat ls = map f l -> exists gss, ls = map (map f) gss /\ concat gss = l.
Proof.
  induction ls as [|x ls IH]; intros l H; cbn [concat] in H.
  - destruct l; [|discriminate]. exists []. auto.
  - symmetry in H. apply map_eq_app in H. destruct H as (l1 & l2 & -> & E1 & E2). symmetry in E2. destruct (IH l2 E2) as (gss & -> & E). exists (l1 :: gss). cbn. rewrite E1, E. auto.
Qed.
Lemma skipn_tl {A} k (l : list A) : skipn k (tl l) = tl (skipn k l).
Proof. revert l. induction k as [|k IH]; intros l; [reflexivity|]. destruct l as [|x l]; [reflexivity|]. cbn [tl skipn]. destruct l as [|y l]; [destruct k; reflexivity|]. cbn [skipn]. apply (IH (y :: l)). Qed.
Lemma skipn_S_tl {A} k (l : list A) : skipn (S k) l = tl (skipn k l).
Proof. destruct l; [destruct k; reflexivity|]. cbn [skipn]. rewrite <- skipn_tl. reflexivity. Qed.

Lemma combine_app {A B} (l1 l2 : list A) (r1 r2 : list B) : length l1 = length r1 -> combine (l1 ++ l2) (r1 ++ r2) = combine l1 r1 ++ combine l2 r2.
Proof. revert r1. induction l1 as [|x l1 IH]; intros [|y r1] H; try discriminate; [reflexivity|]. cbn in *. rewrite IH by lia. reflexivity. Qed.

Section Mkn2.
  Context (U : udb) (OK : udb_ok U) (M : nat) (tts : list (list (list str))).
  Notation sents := (sents tts).
  Notation mk := (mk U tts).
  Notation corpus := (corpus U M tts).
  Notation types := (types U sents).
  Notation cnt := (cnt U sents).
  Notation preceding := (preceding U sents).
  Notation around := (around U sents).
  Notation following := (following U sents).
  Notation m := (mkn_state U M tts).
  Notation suffix o g := (skipn (length g - o) g).

  Lemma dq1 o : 2 <= o <= M -> dq (mk_d1 m) o = Ok (D1 U sents o).
  Proof. intros H. unfold dq. cbn [mkn_state mk_d1 dtables fst]. rewrite dget_table. destruct (Nat.leb_spec 2 o); [|lia]. destruct (Nat.ltb_spec o (2 + (M - 1))); [reflexivity|lia]. Qed.
  Lemma dq2 o : 2 <= o <= M -> dq (mk_d2 m) o = Ok (D2 U sents o).
  Proof. intros H. unfold dq. cbn [mkn_state mk_d2 dtables fst snd]. rewrite dget_table. destruct (Nat.leb_spec 2 o); [|lia]. destruct (Nat.ltb_spec o (2 + (M - 1))); [reflexivity|lia]. Qed.
  Lemma dq3 o : 2 <= o <= M -> dq (mk_d3 m) o = Ok (D3 U sents o).
  Proof. intros H. unfold dq. cbn [mkn_state mk_d3 dtables snd]. rewrite dget_table. destruct (Nat.leb_spec 2 o); [|lia]. destruct (Nat.ltb_spec o (2 + (M - 1))); [reflexivity|lia]. Qed.
  Lemma discount_ok o k : 2 <= o <= M -> discount m o k = Ok (D U sents o k).
  Proof. intros H. unfold discount, D. destruct k as [|[|[|k]]]; [reflexivity|apply dq1|apply dq2|apply dq3]; exact H. Qed.

  Lemma types_suffix n g o : 1 <= o <= n -> In g (types n) -> In (suffix o g) (types o).
  Proof.
    intros Ho Hg. pose proof (types_length U tts n g ltac:(lia) Hg) as Hl. rewrite Hl. remember (n - o) as k eqn:Hk. clear Hl.
    revert n g o Ho Hg Hk. induction k as [|k IH]; intros n g o Ho Hg Hk; [replace o with n by lia; exact Hg|].
    rewrite skipn_S_tl. apply types_tl; [lia|]. apply (IH n); [lia|exact Hg|lia].
  Qed.
  Lemma suffix_tl (g : list str) o : S o <= length g -> tl (suffix (S o) g) = suffix o g.
  Proof. intros H. rewrite <- skipn_S_tl. f_equal. lia. Qed.

  Definition pk (o : nat) (g : list str) : pack :=
    let h := suffix o g in
    let top := length g =? o in
    let cl := if top then cnt h else preceding h in
    {| pk_cl := cl; pk_cl_d := D U sents (if top then o else o + 1) cl; pk_crl := if top then cnt (removelast h) else around (removelast h);
       pk_n1 := following (removelast h) (Nat.eqb 1); pk_n1_d := D1 U sents o;
       pk_n2 := following (removelast h) (Nat.eqb 2); pk_n2_d := D2 U sents o;
       pk_n3 := following (removelast h) (Nat.leb 3); pk_n3_d := D3 U sents o |}.

  Lemma without_last_ok n h : 2 <= n -> In h (types n) -> without_last_token U (mk h) = Ok (spaced (removelast h)).
  Proof.
    intros Hn Hh. pose proof (types_length U tts n h ltac:(lia) Hh) as Hl. pose proof (types_tokenish U OK tts _ _ Hh) as Ht. unfold without_last_token. rewrite (order_mk U OK) by exact Ht.
    destruct (Nat.ltb_spec 1 (length h)); [|lia]. rewrite (tokens_mk U OK) by exact Ht. rewrite slice_removelast. reflexivity.
  Qed.
  Lemma removelast_ne n (h : list str) : 2 <= n -> length h = n -> removelast h <> [].
  Proof. intros Hn Hl E. apply (f_equal (@length str)) in E. rewrite removelast_length in E. cbn in E. lia. Qed.
  Lemma wc_last_ok n h : 2 <= n -> In h (types n) -> wc_last_token U (mk h) = Ok (spaced (removelast h ++ [WC])).
  Proof.
    intros Hn Hh. pose proof (types_length U tts n h ltac:(lia) Hh) as Hl. unfold wc_last_token. rewrite (without_last_ok n) by assumption. cbn [rbind]. f_equal.
    apply (joinsp_snoc WC). apply (removelast_ne n); assumption.
  Qed.
  Lemma cont_ok n h : 2 <= n -> In h (types n) -> continuous_ngram U (mk h) = Ok (spaced (WC :: removelast h ++ [WC])).
  Proof.
    intros Hn Hh. unfold continuous_ngram. rewrite (wc_last_ok n) by assumption. cbn [rbind]. f_equal. apply (joinsp_cons WC). destruct (removelast h); discriminate.
  Qed.
  Lemma prepend_ok n h : 1 <= n -> In h (types n) -> prepend_wc (mk h) = spaced (WC :: h).
  Proof. intros Hn Hh. pose proof (types_length U tts n h Hn Hh) as Hl. apply (joinsp_cons WC). intros E. subst h. cbn in Hl. lia. Qed.
  Lemma lower_ok n g o : 1 <= o -> o < n -> In g (types n) -> lower_order U (mk g) o = Ok (spaced (suffix o g)).
  Proof.
    intros Ho Hn Hg. pose proof (types_length U tts n g ltac:(lia) Hg) as Hl. pose proof (types_tokenish U OK tts _ _ Hg) as Ht. unfold lower_order.
    rewrite (order_mk U OK) by exact Ht. destruct (Nat.ltb_spec 0 o); [|lia]. destruct (Nat.ltb_spec o (length g)); [|lia]. cbn [andb].
    rewrite (tokens_mk U OK) by exact Ht. replace (Z.of_nat (length g) - Z.of_nat o)%Z with (Z.of_nat (length g - o)) by lia. rewrite slice_from. reflexivity.
  Qed.

  Lemma mkn_pack_ok n g o : 2 <= o <= n -> n <= M -> In g (types n) -> mkn_pack U m (mk g) o = Ok (pk o g).
  Proof.
    intros Ho HM Hg. pose proof (types_length U tts n g ltac:(lia) Hg) as Hl. pose proof (types_tokenish U OK tts _ _ Hg) as Ht.
    pose proof (types_suffix n g o ltac:(lia) Hg) as Hh. set (h := suffix o g) in *. pose proof (types_length U tts o h ltac:(lia) Hh) as Hlh.
    assert (Hr : In (removelast h) (types (o - 1))) by (apply types_removelast; [lia|]; replace (S (o - 1)) with o by lia; exact Hh).
    assert (Hlr : length (removelast h) = o - 1) by (rewrite removelast_length; lia).
    pose proof (types_plain U OK tts _ _ Hh) as Hph. pose proof (types_plain U OK tts _ _ Hr) as Hpr.
    unfold mkn_pack. destruct (Nat.ltb_spec 1 o); [|lia]. rewrite (order_mk U OK) by exact Ht. unfold pk. fold h.
    assert (Hc : mk_counts m = fold_left (count_ngram U) corpus no_counts) by reflexivity.
    destruct (Nat.eqb_spec (length g) o) as [E|E].
    - assert (Eh : h = g) by (unfold h; rewrite E, Nat.sub_diag; reflexivity). rewrite Eh in *. clear Eh h.
      rewrite discount_ok by lia. cbn [rbind]. rewrite (without_last_ok o) by (assumption || lia). cbn [rbind]. unfold find_ngram. cbn [mkn_state mk_lookup].
      rewrite (lookup_mk U OK M tts (o - 1)) by (assumption || lia). cbn [of_option rbind]. rewrite (wc_last_ok o) by (assumption || lia). cbn [rbind].
      rewrite dq1, dq2, dq3 by lia. cbn [rbind]. rewrite Hc. rewrite wc1_following, wc2_following, wc3_following by (assumption || lia). reflexivity.
    - rewrite (lower_ok n) by (assumption || lia). fold h. cbn [rbind]. unfold find_ngram. cbn [mkn_state mk_lookup].
      rewrite (lookup_mk U OK M tts o) by (assumption || lia). cbn [of_option rbind]. change (mkn_state U M tts) with m. rewrite (prepend_ok o) by (assumption || lia). rewrite Hc.
      rewrite wcs_preceding by (assumption || lia). rewrite discount_ok by lia. cbn [rbind]. rewrite (cont_ok o) by (assumption || lia). cbn [rbind].
      rewrite (wc_last_ok o) by (assumption || lia). cbn [rbind]. rewrite dq1, dq2, dq3 by lia. cbn [rbind].
      rewrite wcs_around, wc1_following, wc2_following, wc3_following by (assumption || lia). reflexivity.
  Qed.

  (** ** the value of an ngram at an order *)
  Definition V (o : nat) (g : list str) : Q := if length g =? o then kneser_ney U sents g else lower_kn U sents o (suffix o g).
  Lemma around_pos n g o : 2 <= o < n -> In g (types n) -> 1 <= around (removelast (suffix o g)).
  Proof.
    intros Ho Hg. pose proof (types_length U tts n g ltac:(lia) Hg) as Hl. pose proof (types_suffix n g (S o) ltac:(lia) Hg) as Hh.
    pose proof (types_suffix n g o ltac:(lia) Hg) as Hs. pose proof (types_length U tts o _ ltac:(lia) Hs) as Hls.
    unfold around, how_many. rewrite removelast_length, Hls. replace (S (S (o - 1))) with (S o) by lia.
    assert (Hin : In (suffix (S o) g) (filter (fun h => words_eqb (removelast (tl h)) (removelast (suffix o g))) (types (S o)))).
    { apply filter_In. split; [exact Hh|]. rewrite suffix_tl by lia. apply words_eqb_refl. }
    destruct (filter _ _); [destruct Hin|cbn; lia].
  Qed.
  Lemma V_step n g o : 2 <= o <= n -> In g (types n) ->
    V o g = (Qmax (Qn (pk_cl (pk o g)) - pk_cl_d (pk o g)) 0 / Qn (pk_crl (pk o g)) +
      (Qn (pk_n1 (pk o g)) * D1 U sents o + Qn (pk_n2 (pk o g)) * D2 U sents o + Qn (pk_n3 (pk o g)) * D3 U sents o) / Qn (pk_crl (pk o g)) * V (o - 1) g)%Q.
  Proof.
    intros Ho Hg. pose proof (types_length U tts n g ltac:(lia) Hg) as Hl. unfold V, pk. destruct (Nat.eqb_spec (length g) (o - 1)) as [|_]; [lia|].
    pose proof (suffix_tl g (o - 1) ltac:(lia)) as Ht. replace (S (o - 1)) with o in Ht by lia.
    assert (Hlr : S (length (removelast (suffix o g))) = o) by (rewrite removelast_length, skipn_length; lia).
    destruct (Nat.eqb_spec (length g) o) as [E|E].
    - assert (Es : suffix o g = g) by (rewrite E, Nat.sub_diag; reflexivity). rewrite Es in *. destruct g as [|a [|b g]]; [cbn in E; lia|cbn in E; lia|].
      unfold kneser_ney. rewrite Ht. rewrite E. cbn [pk_cl pk_cl_d pk_crl pk_n1 pk_n2 pk_n3]. unfold left_over. rewrite Hlr. reflexivity.
    - destruct o as [|[|o]]; [lia|lia|]. cbn [pk_cl pk_cl_d pk_crl pk_n1 pk_n2 pk_n3]. cbn [lower_kn]. unfold left_over. rewrite Hlr. rewrite Ht.
      replace (S (S o) + 1) with (S (S (S o))) by lia. replace (S (S o) - 1) with (S o) by lia. reflexivity.
  Qed.

  (** unigrams *)
  Notation nb2 := (length (types 2)).
  Definition unis : dict str Q := fold_left (fun d '(n, p) => dset str_eqb (ng_text n) p d) (combine (map mk (types 1)) (map (lower_kn U sents 1) (types 1))) [].
  Lemma unis_get g : In g (types 1) -> dget str_eqb (spaced g) unis = Some (lower_kn U sents 1 g).
  Proof.
    intros Hg. unfold unis. assert (G : forall l d, (forall h, In h l -> In h (types 1)) -> In g l ->
      dget str_eqb (spaced g) (fold_left (fun d '(n, p) => dset str_eqb (ng_text n) p d) (combine (map mk l) (map (lower_kn U sents 1) l)) d) = Some (lower_kn U sents 1 g)).
    { induction l as [|h l IH] using rev_ind; intros d Hl Hin; [destruct Hin|].
      rewrite !map_app. cbn [map]. rewrite combine_app by (rewrite !map_length; reflexivity). cbn [combine]. rewrite fold_left_app. cbn [fold_left mk ng_text]. rewrite (dget_dset _ str_eqb_ok).
      destruct (str_eqb (spaced g) (spaced h)) eqn:E.
      - apply str_eqb_eq in E. apply (spaced_inj U OK) in E; [subst; reflexivity|eapply types_tokenish; eassumption|].
        eapply types_tokenish; [exact OK|]. apply Hl. apply in_or_app. right. left. reflexivity.
      - apply IH; [intros x Hx; apply Hl, in_or_app; left; exact Hx|]. apply in_app_or in Hin. destruct Hin as [H|[H|[]]]; [exact H|]. subst. rewrite str_eqb_refl in E. discriminate. }
    apply G; auto.
  Qed.
  Lemma last_token_ok n g : 1 <= n -> In g (types n) -> last_token U (mk g) = Ok (spaced (suffix 1 g)).
  Proof.
    intros Hn Hg. pose proof (types_length U tts n g Hn Hg) as Hl. pose proof (types_tokenish U OK tts _ _ Hg) as Ht. unfold last_token. rewrite (tokens_mk U OK) by exact Ht.
    destruct (exists_last (l := g)) as (a & w & ->); [intros ->; cbn in Hl; lia|]. rewrite index_last, last_of_app. cbn [last_of of_option]. rewrite app_length. cbn [length].
    replace (length a + 1 - 1) with (length a) by lia. rewrite skipn_app, skipn_all, Nat.sub_diag. reflexivity.
  Qed.
  Lemma V1 n g : 1 <= n -> In g (types n) -> V 1 g = lower_kn U sents 1 (suffix 1 g).
  Proof.
    intros Hn Hg. unfold V. destruct (Nat.eqb_spec (length g) 1) as [E|_]; [|reflexivity]. destruct g as [|w [|]]; cbn in E; try lia. reflexivity.
  Qed.

  Fixpoint ops (gs : list (list str)) (o : nat) : operands :=
    match o with
    | 0 => Uni []
    | 1 => Uni (map (V 1) gs)
    | S o' => Multi (map (pk o) gs) (ops gs o')
    end.
  Lemma arrays_ok n ts gs r : 1 <= n <= M -> (forall g, In g gs -> In g (types n)) ->
    mapM (fun i => of_option IndexError (nth_error (map mk ts) i)) r = Ok (map mk gs) ->
    forall o, 1 <= o <= n -> mkn_arrays U m unis (map mk ts) o r = Ok (ops gs o).
  Proof.
    intros Hn Hgs Hr. induction o as [|o IH]; intros Ho; [lia|]. destruct o as [|o].
    - cbn [mkn_arrays ops]. rewrite (mapM_bind _ (fun x => let! t := last_token U x in of_option KeyError (dget str_eqb t unis)) _ _ Hr). rewrite mapM_map.
      rewrite (mapM_all _ (V 1)); [reflexivity|]. intros g Hg. rewrite (last_token_ok n) by (auto; lia). cbn [rbind].
      rewrite unis_get by (apply (types_suffix n); auto; lia). rewrite (V1 n) by (auto; lia). reflexivity.
    - change (mkn_arrays U m unis (map mk ts) (S (S o)) r) with
        (let! packs := mapM (fun i => let! n := of_option IndexError (nth_error (map mk ts) i) in mkn_pack U m n (S (S o))) r in
         let! rest := mkn_arrays U m unis (map mk ts) (S o) r in Ok (Multi packs rest)).
      rewrite (mapM_bind _ (fun x => mkn_pack U m x (S (S o))) _ _ Hr). rewrite mapM_map. rewrite (mapM_all _ (pk (S (S o)))).
      + cbn [rbind]. rewrite IH by lia. reflexivity.
      + intros g Hg. apply (mkn_pack_ok n); auto; lia.
  Qed.
  Lemma zipM_map {A B C} (f : B -> C -> res Q) (a : A -> B) (b : A -> C) (v : A -> Q) l : (forall x, In x l -> f (a x) (b x) = Ok (v x)) -> zipM f (map a l) (map b l) = Ok (map v l).
  Proof. induction l as [|x l IH]; intros H; [reflexivity|]. cbn [map zipM]. rewrite H by (left; reflexivity). cbn [rbind]. rewrite IH; [reflexivity|]. intros y Hy. apply H. right. exact Hy. Qed.
  Lemma recursive_ok n gs : 1 <= n <= M -> (forall g, In g gs -> In g (types n)) ->
    forall o, 1 <= o <= n -> calc_proba_recursive (ops gs o) = Ok (map (V o) gs).
  Proof.
    intros Hn Hgs. induction o as [|o IH]; intros Ho; [lia|]. destruct o as [|o]; [reflexivity|].
    change (ops gs (S (S o))) with (Multi (map (pk (S (S o))) gs) (ops gs (S o))). cbn [calc_proba_recursive]. rewrite IH by lia. cbn [rbind].
    rewrite <- map_rev. destruct (rev gs) as [|lst l] eqn:E.
    - apply (f_equal (@rev _)) in E. rewrite rev_involutive in E. subst. reflexivity.
    - cbn [map]. apply zipM_map. intros g Hg. pose proof (Hgs g Hg) as Ht. rewrite (V_step n g (S (S o))) by (auto; lia).
      assert (Hp : (0 < Qn (pk_crl (pk (S (S o)) g)))%Q).
      { apply Qn_pos. cbn [pk pk_crl]. pose proof (types_length U tts n g ltac:(lia) Ht) as Hl. destruct (Nat.eqb_spec (length g) (S (S o))) as [El|El].
        - assert (Es : suffix (S (S o)) g = g) by (rewrite El, Nat.sub_diag; reflexivity). rewrite Es.
          apply (cnt_pos U tts (S o)); [lia|]. apply types_removelast; [lia|]. replace (S (S o)) with n by lia. exact Ht.
        - apply (around_pos n); [lia|exact Ht]. }
      rewrite !qdiv_pos by exact Hp. cbn [rbind]. replace (S (S o) - 1) with (S o) by lia. reflexivity.
  Qed.

  Lemma types_le o : 1 <= o <= M -> length (types o) <= length corpus.
  Proof. intros H. rewrite <- (map_length mk). rewrite <- (corpus_order U OK M tts o H). apply of_order_length. Qed.
  Lemma slices_ok nb o : 1 <= o <= M -> 1 <= nb -> (Z.of_nat nb <= 2 ^ 53)%Z -> (Z.of_nat (length corpus) <= 2 ^ 53)%Z ->
    exists gss, mapM (mapM (fun i => of_option IndexError (nth_error (map mk (types o)) i))) (process_ranges (length (types o)) (Z.of_nat nb)) = Ok (map (map mk) gss) /\
      concat gss = types o /\ length gss = nb.
  Proof.
    intros Ho Hnb Hnb' Hc. destruct (ranges_mapM (fun i => of_option IndexError (nth_error (map mk (types o)) i)) (length (types o)) nb (map mk (types o)) Hnb Hnb') as (sl & H1 & H2 & H3).
    - pose proof (types_le o Ho). lia.
    - replace (length (types o)) with (length (map mk (types o))) by apply map_length. apply mapM_nth.
    - destruct (concat_map_inv mk sl _ H2) as (gss & -> & E). exists gss. rewrite map_length in H3. auto.
  Qed.

  Lemma higher_ok nb o : 2 <= o <= M -> 1 <= nb -> (Z.of_nat nb <= 2 ^ 53)%Z -> (Z.of_nat (length corpus) <= 2 ^ 53)%Z ->
    calc_higher_order_probas U m unis (Z.of_nat nb) o = Ok (map (kneser_ney U sents) (types o)).
  Proof.
    intros Ho Hnb Hnb' Hc. unfold calc_higher_order_probas. destruct (Nat.ltb_spec 1 o); [|lia].
    change (k_ngrams (mk_counts m)) with (k_ngrams (fold_left (count_ngram U) corpus no_counts)). rewrite (ngrams_order U OK) by lia. rewrite map_length.
    destruct (slices_ok nb o ltac:(lia) Hnb Hnb' Hc) as (gss & H1 & H2 & H3).
    assert (Hin : forall gs g, In gs gss -> In g gs -> In g (types o)) by (intros gs g Hgs Hg; rewrite <- H2; apply in_concat; eauto).
    assert (Ha : mapM (mkn_arrays U m unis (map mk (types o)) o) (process_ranges (length (types o)) (Z.of_nat nb)) = Ok (map (fun gs => ops gs o) gss)).
    { apply F2_mapM. apply mapM_F2 in H1. remember (process_ranges (length (types o)) (Z.of_nat nb)) as rs eqn:Ers. clear Ers H2 H3.
      revert rs H1. induction gss as [|gs gss IH]; intros rs H1; inversion H1; subst; [constructor|]. cbn [map]. constructor.
      - apply (arrays_ok o); try assumption; try lia. intros g Hg. apply (Hin gs); [left; reflexivity|exact Hg].
      - apply IH; [|assumption]. intros gs' g Hgs Hg. apply (Hin gs'); [right; exact Hgs|exact Hg]. }
    rewrite Ha. cbn [rbind]. rewrite (calc_multithread_ok _ _ _ (map (map (V o)) gss)).
    - rewrite <- H2. rewrite concat_map. do 2 f_equal. apply map_ext_in. intros gs Hgs.
      apply map_ext_in. intros g Hg. pose proof (Hin gs g Hgs Hg) as Ht. unfold V. rewrite (types_length U tts o g ltac:(lia) Ht), Nat.eqb_refl. reflexivity.
    - destruct gss; [cbn in H3; lia|discriminate].
    - lia.
    - rewrite map_length. lia.
    - rewrite mapM_map. apply mapM_all. intros gs Hgs. apply (recursive_ok o); try lia. intros g. apply Hin. exact Hgs.
  Qed.

  Lemma unigram_ok nb : 2 <= M -> 1 <= nb2 -> 1 <= nb -> (Z.of_nat nb <= 2 ^ 53)%Z -> (Z.of_nat (length corpus) <= 2 ^ 53)%Z ->
    calc_unigram_probas m (Z.of_nat nb) = Ok (map (lower_kn U sents 1) (types 1), unis).
  Proof.
    intros HM H2 Hnb Hnb' Hc. unfold calc_unigram_probas. cbv zeta.
    change (k_ngrams (mk_counts m)) with (k_ngrams (fold_left (count_ngram U) corpus no_counts)). rewrite !(ngrams_order U OK) by lia. rewrite !map_length.
    set (f := fun n => Ok (Qn (cget str_eqb (prepend_wc n) (k_wcs (mk_counts m))))).
    destruct (ranges_mapM (fun i => let! n := of_option IndexError (nth_error (map mk (types 1)) i) in f n) (length (types 1)) nb (map (fun g => Qn (preceding g)) (types 1)) Hnb Hnb') as (sl & S1 & S2 & S3).
    - pose proof (types_le 1 ltac:(lia)). lia.
    - replace (length (types 1)) with (length (map mk (types 1))) by apply map_length. apply mapM_bind_nth. rewrite mapM_map. apply mapM_all. intros g Hg. unfold f. rewrite (prepend_ok 1) by (assumption || lia).
      pose proof (types_length U tts 1 g ltac:(lia) Hg) as Hl. f_equal. f_equal. apply wcs_preceding; [exact OK|eapply types_plain; eassumption|lia|lia].
    - unfold f in *. rewrite S1. cbn [rbind]. destruct (concat_map_inv _ _ _ S2) as (gss & -> & E).
      rewrite (calc_multithread_ok _ _ _ (map (map (lower_kn U sents 1)) gss)).
      + cbn [rbind]. rewrite <- concat_map, E. reflexivity.
      + rewrite map_length in S3. destruct gss; [cbn in S3; lia|discriminate].
      + lia.
      + lia.
      + rewrite mapM_map. apply mapM_all. intros gs _. rewrite mapM_map. apply mapM_all. intros g _. rewrite qdiv_pos by (apply Qn_pos; lia). reflexivity.
  Qed.

  (** ** the smoother *)
  Definition kn_entry (g : list str) : ngram := {| ng_text := spaced g; ng_count := cnt g; ng_proba := Some (kneser_ney U sents g) |}.
  Lemma assign_kn d o : 1 <= o -> dget Nat.eqb o d = match map mk (types o) with [] => None | l => Some l end ->
    exists d', assign_order d o (map (kneser_ney U sents) (types o)) = Ok d' /\ (forall o', o' <> o -> dget Nat.eqb o' d' = dget Nat.eqb o' d) /\
      dget Nat.eqb o d' = match map kn_entry (types o) with [] => None | l => Some l end.
  Proof.
    intros Ho Hd. unfold assign_order. destruct (types o) as [|t ts] eqn:E; [exists d; auto|]. cbn [map]. unfold get_order. rewrite Hd. cbn [map of_option rbind].
    change (kneser_ney U sents t :: map (kneser_ney U sents) ts) with (map (kneser_ney U sents) (t :: ts)). change (mk t :: map mk ts) with (map mk (t :: ts)).
    rewrite assign_probas_ok by (rewrite !map_length; reflexivity). cbn [rbind]. eexists. split; [reflexivity|]. split.
    - intros o' H. rewrite (dget_dset _ nateqb_ok). apply Nat.eqb_neq in H. rewrite H. reflexivity.
    - rewrite (dget_dset _ nateqb_ok), Nat.eqb_refl. f_equal. change (kn_entry t :: map kn_entry ts) with (map kn_entry (t :: ts)). generalize (t :: ts). intros l. clear.
      induction l as [|x l IH]; [reflexivity|]. cbn [map combine]. f_equal. exact IH.
  Qed.
  Lemma rich_types o : rich U tts o = true -> 1 <= length (types o).
  Proof.
    unfold rich. cbn [existsb]. rewrite negb_true_iff, !orb_false_iff, !Nat.eqb_neq. intros (H & _). unfold with_count, how_many in H.
    destruct (types o); [cbn in H; congruence|cbn; lia].
  Qed.
  Lemma mkn_ok nb : 2 <= M -> 1 <= nb -> (Z.of_nat nb <= 2 ^ 53)%Z -> (Z.of_nat (length corpus) <= 2 ^ 53)%Z -> forallb (rich U tts) (seq 2 (M - 1)) = true ->
    exists d, mkn_smoother U corpus M (Z.of_nat nb) = Ok d /\ forall o, 1 <= o <= M -> dget Nat.eqb o d = match map kn_entry (types o) with [] => None | l => Some l end.
  Proof.
    intros HM Hnb Hnb' Hc Hr. unfold mkn_smoother. rewrite (mkn_init_ok U OK), Hr. cbn [rbind]. unfold mkn_call.
    rewrite unigram_ok; try assumption; [|apply rich_types; rewrite forallb_forall in Hr; apply Hr, in_seq; lia]. cbn [rbind].
    assert (Hk : forall o, 1 <= o <= M -> dget Nat.eqb o (k_ngrams (mk_counts m)) = match map mk (types o) with [] => None | l => Some l end).
    { intros o Ho. change (k_ngrams (mk_counts m)) with (k_ngrams (fold_left (count_ngram U) corpus no_counts)). rewrite ngrams_group, group_orders, (corpus_order U OK) by exact Ho. reflexivity. }
    assert (E1 : map (lower_kn U sents 1) (types 1) = map (kneser_ney U sents) (types 1)).
    { apply map_ext_in. intros g Hg. pose proof (types_length U tts 1 g ltac:(lia) Hg) as Hl. destruct g as [|w [|]]; cbn in Hl; try lia. reflexivity. }
    rewrite E1. destruct (assign_kn (k_ngrams (mk_counts m)) 1 (le_n 1) (Hk 1 ltac:(lia))) as (d1 & -> & Ho1 & Hs1). cbn [rbind].
    change (mk_last_order m) with M.
    assert (G : forall k a d, 2 <= a -> a + k = S M -> (forall o, 1 <= o < a -> dget Nat.eqb o d = match map kn_entry (types o) with [] => None | l => Some l end) ->
      (forall o, a <= o <= M -> dget Nat.eqb o d = match map mk (types o) with [] => None | l => Some l end) ->
      exists d', foldM (fun d order => let! probas := calc_higher_order_probas U m unis (Z.of_nat nb) order in assign_order d order probas) d (seq a k) = Ok d' /\
        forall o, 1 <= o <= M -> dget Nat.eqb o d' = match map kn_entry (types o) with [] => None | l => Some l end).
    { induction k as [|k IH]; intros a d Ha Hk' Hlo Hhi.
      - exists d. split; [reflexivity|]. intros o Ho. apply Hlo. lia.
      - cbn [seq foldM]. rewrite higher_ok by (assumption || lia). cbn [rbind].
        destruct (assign_kn d a ltac:(lia) (Hhi a ltac:(lia))) as (d' & -> & Ho' & Hs'). cbn [rbind]. apply IH; [lia|lia| |].
        + intros o Ho. destruct (Nat.eq_dec o a) as [->|Hne]; [exact Hs'|]. rewrite Ho' by exact Hne. apply Hlo. lia.
        + intros o Ho. rewrite Ho' by lia. apply Hhi. lia. }
    apply (G (M - 1) 2 d1); [lia|lia| |].
    - intros o Ho. replace o with 1 by lia. exact Hs1.
    - intros o Ho. rewrite Ho1 by lia. apply Hk. lia.
  Qed.
  Lemma mkn_err nb : 2 <= M -> forallb (rich U tts) (seq 2 (M - 1)) = false -> mkn_smoother U corpus M nb = Err MKNNotEnoughDataError.
  Proof. intros HM Hr. unfold mkn_smoother. rewrite (mkn_init_ok U OK), Hr. reflexivity. Qed.
  Lemma rich_false : forallb (rich U tts) (seq 2 (M - 1)) = false <-> exists o r, 2 <= o <= M /\ 1 <= r <= 4 /\ with_count U sents o r = 0.
  Proof.
    split.
    - intros H. apply not_true_iff_false in H. rewrite forallb_forall in H.
      assert (E : existsb (fun o => negb (rich U tts o)) (seq 2 (M - 1)) = true).
      { destruct (existsb (fun o => negb (rich U tts o)) (seq 2 (M - 1))) eqn:E; [reflexivity|]. exfalso. apply H. intros o Ho.
        destruct (rich U tts o) eqn:Er; [reflexivity|]. assert (existsb (fun o => negb (rich U tts o)) (seq 2 (M - 1)) = true); [|congruence]. apply existsb_exists. exists o. rewrite Er. auto. }
      apply existsb_exists in E. destruct E as (o & Ho & E). apply in_seq in Ho. unfold rich in E. rewrite negb_involutive in E. cbn [existsb] in E. rewrite !orb_true_iff, !Nat.eqb_eq in E.
      destruct E as [E|[E|[E|[E|E]]]]; [exists o, 1|exists o, 2|exists o, 3|exists o, 4|discriminate]; repeat split; try lia; exact E.
    - intros (o & r & Ho & Hr & E). apply not_true_iff_false. intros F. rewrite forallb_forall in F. specialize (F o ltac:(apply in_seq; lia)). unfold rich in F. cbn [existsb] in F.
      rewrite negb_true_iff, !orb_false_iff, !Nat.eqb_neq in F. destruct r as [|[|[|[|[|r]]]]]; try lia; intuition congruence.
  Qed.
End Mkn2.
