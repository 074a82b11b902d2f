(** The ngrams of a corpus: the store of the builder by order, counts and types. *)
From Coq Require Import Ascii String.
From Coq Require Import List NArith ZArith QArith Arith Bool Lia.
From Verif Require Import PyBase Regex MUtils SUtils LBase LText LUtils MNgram SLangModel LNgram LLangModel MSmooth LSmooth.
Import ListNotations.
Local Open Scope nat_scope.

Lemma words_eqb_ok : eqb_ok words_eqb. Proof. apply list_eqb_ok, str_eqb_ok. Qed.
Lemma words_eqb_eq g h : words_eqb g h = true <-> g = h. Proof. apply words_eqb_ok. Qed.
Lemma words_eqb_refl g : words_eqb g g = true. Proof. apply words_eqb_eq. reflexivity. Qed.

Lemma filter_comm {A} (p q : A -> bool) l : filter p (filter q l) = filter q (filter p l).
Proof. induction l as [|x l IH]; [reflexivity|]. cbn. destruct (p x) eqn:Ep, (q x) eqn:Eq; cbn; rewrite ?Ep, ?Eq, IH; reflexivity. Qed.
Lemma filter_firsts {K} (eqb : K -> K -> bool) (Heqb : eqb_ok eqb) (p : K -> bool) l : filter p (firsts eqb l) = firsts eqb (filter p l).
Proof.
  induction l as [|x l IH]; [reflexivity|]. cbn [firsts filter]. rewrite filter_comm, IH. destruct (p x) eqn:E; [reflexivity|].
  apply filter_true. intros y Hy. apply (proj1 (In_firsts eqb Heqb _ _)) in Hy. apply filter_In in Hy. destruct Hy as [_ Hy].
  destruct (eqb_ok_reflect _ Heqb x y); [subst; congruence|reflexivity].
Qed.
Lemma map_firsts {K K'} (eqb : K -> K -> bool) (eqb' : K' -> K' -> bool) (f : K -> K') l : eqb_ok eqb -> eqb_ok eqb' ->
  (forall x y, In x l -> In y l -> f x = f y -> x = y) -> firsts eqb' (map f l) = map f (firsts eqb l).
Proof.
  intros H H'. induction l as [|x l IH]; intros Hinj; [reflexivity|]. cbn [map firsts]. f_equal. rewrite IH by (intros; apply Hinj; try (right; assumption); assumption).
  assert (G : forall m, (forall y, In y m -> In y l) -> filter (fun y => negb (eqb' (f x) y)) (map f m) = map f (filter (fun y => negb (eqb x y)) m)).
  { induction m as [|y m IHm]; intros Hm; [reflexivity|]. cbn [map filter]. rewrite IHm by (intros; apply Hm; right; assumption).
    destruct (eqb_ok_reflect _ H x y) as [->|Hne]; [rewrite (eqb_ok_refl _ H'); reflexivity|].
    replace (eqb' (f x) (f y)) with false; [reflexivity|]. symmetry. apply (eqb_ok_false _ H'). intros E. apply Hne. apply Hinj; [left; reflexivity|right; apply Hm; left; reflexivity|exact E]. }
  apply G. intros y Hy. apply (proj1 (In_firsts eqb H _ _)) in Hy. exact Hy.
Qed.
Lemma filter_flat_map {A B} (p : B -> bool) (f : A -> list B) l : filter p (flat_map f l) = flat_map (fun x => filter p (f x)) l.
Proof. induction l; cbn; [reflexivity|]. rewrite filter_app. congruence. Qed.
Lemma filter_map {A B} (p : B -> bool) (f : A -> B) l : filter p (map f l) = map f (filter (fun x => p (f x)) l).
Proof. induction l as [|x l IH]; [reflexivity|]. cbn. destruct (p (f x)); cbn; congruence. Qed.

Section Corpus.
  Context (U : udb) (OK : udb_ok U) (M : nat) (tts : list (list (list str))).
  Definition sents : list (list str) := concat tts.
  Definition mk (g : list str) : ngram := {| ng_text := spaced g; ng_count := cnt U sents g; ng_proba := None |}.

  Lemma ngrams_of_tokenish n s g : In g (ngrams_of U n s) -> Forall (tokenish U) g.
  Proof. intros H. eapply Forall_impl; [|eapply ngrams_of_plain; eassumption]. intros w. apply plain_tokenish. exact OK. Qed.
  Lemma tokens_spaced g : Forall (tokenish U) g -> split_ws (u_space U) (spaced g) = g.
  Proof. apply split_spaced. exact OK. Qed.
  Lemma order_mk g : Forall (tokenish U) g -> ng_order U (mk g) = length g.
  Proof. intros H. unfold ng_order, ng_tokens. cbn [mk ng_text]. rewrite tokens_spaced by exact H. reflexivity. Qed.
  Lemma tokens_mk g : Forall (tokenish U) g -> ng_tokens U (mk g) = g.
  Proof. intros H. unfold ng_tokens. cbn [mk ng_text]. apply tokens_spaced. exact H. Qed.

  (** the texts of one order *)
  Definition order_text (t : str) : nat := length (split_ws (u_space U) t).
  Lemma filter_order o : 1 <= o <= M -> filter (fun t => order_text t =? o) (all_ngrams U M tts) = map spaced (ngrams_of U o sents).
  Proof.
    intros Ho. unfold all_ngrams, sents, ngrams_of. rewrite filter_flat_map.
    assert (E : forall text, filter (fun t => order_text t =? o) (flat_map (fun n => map spaced (flat_map (ngrams_in U n) text)) (seq 1 M)) = map spaced (flat_map (ngrams_in U o) text)).
    { intros text. rewrite filter_flat_map.
      assert (E1 : forall n, In n (seq 1 M) -> filter (fun t => order_text t =? o) (map spaced (flat_map (ngrams_in U n) text)) = if n =? o then map spaced (flat_map (ngrams_in U o) text) else []).
      { intros n Hn. apply in_seq in Hn. rewrite filter_map.
        assert (HL : forall g, In g (flat_map (ngrams_in U n) text) -> order_text (spaced g) = n).
        { intros g Hg. unfold order_text. rewrite tokens_spaced by (eapply (ngrams_of_tokenish n text); exact Hg). eapply (ngrams_of_length U n text); [lia|exact Hg]. }
        destruct (Nat.eqb_spec n o) as [->|Hne].
        - f_equal. apply filter_true. intros g Hg. apply Nat.eqb_eq. apply HL. exact Hg.
        - rewrite filter_false; [reflexivity|]. intros g Hg. apply Nat.eqb_neq. rewrite HL by exact Hg. exact Hne. }
      assert (E2 : forall l, NoDup l -> (forall n, In n l -> In n (seq 1 M)) ->
        flat_map (fun n => filter (fun t => order_text t =? o) (map spaced (flat_map (ngrams_in U n) text))) l = if existsb (Nat.eqb o) l then map spaced (flat_map (ngrams_in U o) text) else []).
      { induction l as [|n l IH]; intros Hnd Hin; [reflexivity|]. cbn [flat_map existsb]. inversion Hnd; subst. rewrite E1 by (apply Hin; left; reflexivity).
        rewrite IH by (assumption || (intros; apply Hin; right; assumption)). rewrite (Nat.eqb_sym o n). destruct (Nat.eqb_spec n o) as [->|Hne]; cbn [orb]; [|reflexivity].
        destruct (existsb (Nat.eqb o) l) eqn:Ex; [|apply app_nil_r]. apply existsb_exists in Ex. destruct Ex as (x & Hx & Ex). apply Nat.eqb_eq in Ex. subst x. contradiction. }
      rewrite E2; [|apply seq_NoDup|auto]. replace (existsb (Nat.eqb o) (seq 1 M)) with true; [reflexivity|]. symmetry. apply existsb_exists. exists o. split; [apply in_seq; lia|apply Nat.eqb_refl]. }
    erewrite flat_map_ext; [|exact E]. clear E. induction tts as [|t l IH]; [reflexivity|]. cbn [flat_map concat]. rewrite flat_map_app, map_app, IH. reflexivity.
  Qed.
  Lemma all_orders t : In t (all_ngrams U M tts) -> 1 <= order_text t <= M.
  Proof.
    unfold all_ngrams. rewrite in_flat_map. intros (text & _ & H). apply in_flat_map in H. destruct H as (n & Hn & H). apply in_seq in Hn. apply in_map_iff in H.
    destruct H as (g & <- & Hg). unfold order_text. rewrite tokens_spaced by (eapply ngrams_of_tokenish; exact Hg). rewrite (ngrams_of_length U n text g) by (assumption || lia). lia.
  Qed.
  Lemma filter_str_words g l : Forall (tokenish U) g -> (forall h, In h l -> Forall (tokenish U) h) -> length (filter (str_eqb (spaced g)) (map spaced l)) = length (filter (words_eqb g) l).
  Proof.
    intros Hg Hl. rewrite filter_map, map_length. f_equal. apply filter_ext_in. intros h Hh. destruct (words_eqb g h) eqn:E.
    - apply words_eqb_eq in E. subst. apply str_eqb_refl.
    - apply str_eqb_neq. intros F. apply (spaced_inj U OK) in F; [|exact Hg|apply Hl; exact Hh]. subst. rewrite words_eqb_refl in E. discriminate.
  Qed.
  Lemma occurrences_cnt g : Forall (tokenish U) g -> 1 <= length g <= M -> occurrences (spaced g) (all_ngrams U M tts) = cnt U sents g.
  Proof.
    intros Hg Hl. unfold occurrences, cnt. rewrite <- filter_str_words; [|exact Hg|intros; eapply ngrams_of_tokenish; eassumption].
    rewrite <- filter_order by exact Hl. f_equal. rewrite filter_comm. symmetry. apply filter_true. intros t Ht. apply filter_In in Ht. destruct Ht as [_ Ht].
    apply str_eqb_eq in Ht. subst t. apply Nat.eqb_eq. unfold order_text. rewrite tokens_spaced by exact Hg. reflexivity.
  Qed.

  Definition corpus : list ngram := store_ngrams (store_of (all_ngrams U M tts)).
  Lemma corpus_eq : corpus = map (counted (all_ngrams U M tts)) (firsts str_eqb (all_ngrams U M tts)).
  Proof. unfold corpus, store_ngrams, dvalues. rewrite store_of_spec, map_map. reflexivity. Qed.
  Lemma corpus_order o : 1 <= o <= M -> of_order U o corpus = map mk (types U sents o).
  Proof.
    intros Ho. rewrite corpus_eq. unfold of_order. rewrite filter_map. unfold ng_order, ng_tokens. cbn [counted ng_text].
    change (fun x => length (split_ws (u_space U) x) =? o) with (fun t => order_text t =? o).
    rewrite (filter_firsts str_eqb str_eqb_ok), filter_order by exact Ho. unfold types. rewrite (map_firsts words_eqb str_eqb spaced); [|exact words_eqb_ok|exact str_eqb_ok|].
    - rewrite map_map. apply map_ext_in. intros g Hg. apply (proj1 (In_firsts words_eqb words_eqb_ok _ _)) in Hg. unfold counted, mk. f_equal.
      pose proof (ngrams_of_length U o sents g (proj1 Ho) Hg). apply occurrences_cnt; [eapply ngrams_of_tokenish; exact Hg|lia].
    - intros x y Hx Hy E. apply (spaced_inj U OK) in E; [exact E|eapply ngrams_of_tokenish; exact Hx|eapply ngrams_of_tokenish; exact Hy].
  Qed.
  Lemma In_types n g : In g (types U sents n) <-> In g (ngrams_of U n sents).
  Proof. unfold types. apply (In_firsts words_eqb words_eqb_ok). Qed.
  Lemma NoDup_types n : NoDup (types U sents n).
  Proof. apply (NoDup_firsts words_eqb words_eqb_ok). Qed.
  Lemma In_corpus n : In n corpus <-> exists o g, 1 <= o <= M /\ In g (types U sents o) /\ n = mk g.
  Proof.
    split.
    - intros H. assert (Ho : 1 <= ng_order U n <= M).
      { rewrite corpus_eq in H. apply in_map_iff in H. destruct H as (t & <- & Ht). apply (proj1 (In_firsts str_eqb str_eqb_ok _ _)) in Ht. apply (all_orders t Ht). }
      assert (Hi : In n (of_order U (ng_order U n) corpus)) by (apply filter_In; split; [exact H|apply Nat.eqb_refl]).
      rewrite corpus_order in Hi by exact Ho. apply in_map_iff in Hi. destruct Hi as (g & <- & Hg). exists (ng_order U (mk g)), g. auto.
    - intros (o & g & Ho & Hg & ->). assert (Hi : In (mk g) (of_order U o corpus)) by (rewrite corpus_order by exact Ho; apply in_map; exact Hg).
      apply filter_In in Hi. apply Hi.
  Qed.
  Lemma types_plain n g : In g (types U sents n) -> Forall plain g.
  Proof. intros H. apply In_types in H. eapply ngrams_of_plain; eassumption. Qed.
  Lemma types_tokenish n g : In g (types U sents n) -> Forall (tokenish U) g.
  Proof. intros H. apply In_types in H. eapply ngrams_of_tokenish; eassumption. Qed.
  Lemma types_length n g : 1 <= n -> In g (types U sents n) -> length g = n.
  Proof. intros Hn H. apply In_types in H. eapply ngrams_of_length; eassumption. Qed.
  Lemma types_tl n g : 1 <= n -> In g (types U sents (S n)) -> In (tl g) (types U sents n).
  Proof. rewrite !In_types. apply ngrams_of_tl. Qed.
  Lemma types_removelast n g : 1 <= n -> In g (types U sents (S n)) -> In (removelast g) (types U sents n).
  Proof. rewrite !In_types. apply ngrams_of_removelast. Qed.
  Lemma cnt_pos n g : 1 <= n -> In g (types U sents n) -> 1 <= cnt U sents g.
  Proof.
    intros Hn Hg. pose proof (types_length n g Hn Hg) as Hl. apply In_types in Hg. unfold cnt. rewrite Hl.
    assert (Hi : In g (filter (words_eqb g) (ngrams_of U n sents))) by (apply filter_In; split; [exact Hg|apply words_eqb_refl]).
    destruct (filter (words_eqb g) (ngrams_of U n sents)); [destruct Hi|cbn; lia].
  Qed.
  Lemma corpus_text_inj a b : In a corpus -> In b corpus -> ng_text a = ng_text b -> a = b.
  Proof.
    intros Ha Hb E. apply In_corpus in Ha, Hb. destruct Ha as (o & g & Ho & Hg & ->), Hb as (o' & g' & Ho' & Hg' & ->). cbn in E.
    apply (spaced_inj U OK) in E; [subst; reflexivity|eapply types_tokenish; eassumption|eapply types_tokenish; eassumption].
  Qed.
  (** counting the ngrams of the corpus *)
  Lemma count_corpus o (p : ngram -> bool) : 1 <= o <= M -> (forall n, In n corpus -> p n = true -> ng_order U n = o) ->
    length (filter p corpus) = how_many U sents o (fun g => p (mk g)).
  Proof.
    intros Ho Hp. unfold how_many. transitivity (length (filter p (of_order U o corpus))).
    - f_equal. unfold of_order. rewrite filter_comm. symmetry. apply filter_true. intros n Hn. apply filter_In in Hn. apply Nat.eqb_eq. apply Hp; tauto.
    - rewrite corpus_order by exact Ho. rewrite filter_map, map_length. reflexivity.
  Qed.
End Corpus.

(** ** partition of a list by a function *)
Lemma sum_partition {A K} (eqb : K -> K -> bool) (Heqb : eqb_ok eqb) (f : A -> K) (keys : list K) (l : list A) : NoDup keys -> (forall x, In x l -> In (f x) keys) ->
  list_sum (map (fun k => length (filter (fun x => eqb (f x) k) l)) keys) = length l.
Proof.
  intros Hnd. induction l as [|x l IH]; intros Hin.
  - clear. induction keys as [|k ks IHk]; [reflexivity|exact IHk].
  - assert (E : forall k, length (filter (fun x => eqb (f x) k) (x :: l)) = (if eqb (f x) k then 1 else 0) + length (filter (fun x => eqb (f x) k) l)).
    { intros k. cbn. destruct (eqb (f x) k); reflexivity. }
    rewrite (map_ext _ _ E). assert (Hs : forall g h : K -> nat, list_sum (map (fun k => g k + h k) keys) = list_sum (map g keys) + list_sum (map h keys)).
    { clear. intros g h. induction keys as [|k r IHr]; [reflexivity|]. cbn [map list_sum fold_right] in *. unfold list_sum in IHr. rewrite IHr. lia. }
    rewrite Hs, IH by (intros; apply Hin; right; assumption). cbn [length]. change (S (length l)) with (1 + length l). f_equal.
    assert (Hk : In (f x) keys) by (apply Hin; left; reflexivity). clear - Heqb Hnd Hk.
    assert (Z0 : forall ks, ~ In (f x) ks -> list_sum (map (fun k => if eqb (f x) k then 1 else 0) ks) = 0).
    { induction ks as [|k ks IH]; intros Hn; [reflexivity|]. cbn. destruct (eqb_ok_reflect _ Heqb (f x) k) as [E|E]; [exfalso; apply Hn; left; congruence|].
      cbn. apply IH. intros F. apply Hn. right. exact F. }
    induction keys as [|k ks IH]; [destruct Hk|]. inversion Hnd; subst. cbn [map]. cbv beta. destruct (eqb_ok_reflect _ Heqb (f x) k) as [E|E].
    + subst k. change (1 + list_sum (map (fun k => if eqb (f x) k then 1 else 0) ks) = 1). rewrite Z0 by assumption. reflexivity.
    + change (0 + list_sum (map (fun k => if eqb (f x) k then 1 else 0) ks) = 1). rewrite IH; [reflexivity|assumption|]. destruct Hk as [->|Hk]; [congruence|exact Hk].
Qed.
