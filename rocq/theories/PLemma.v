(** C94: which regular forms the lemmatizer undoes. *)
From Coq Require Import Ascii String.
From Coq Require Import List NArith ZArith Arith Bool Lia Permutation.
From Verif Require Import PyBase Regex MUtils MTree MNgram MLangModel MNormal SNormal SLangModel LBase SUtils LText LUdb LRegex LLangModel LNormal LNormal2 LNormal4 LNormal5 LNormal7 PNormal.
Import ListNotations.
Local Open Scope nat_scope.

(** A word that is no special form and, with or without prefix, in no table; that is the regular inflection, with some suffix, of a
    lemma the language model has counted, or whose part after the prefix it has counted; no other lemma of which the word would be a
    regular inflection ends any n-gram of the model, with or without prefix. Then the result is that lemma and that suffix, except
    for hidden forms. *)
Theorem C94_undone : forall (U : udb) (P L : Type) (leP : P -> P -> bool) (leL : L -> L -> bool) zero ninf float_of_str (log : P -> res L) min_counts files m lx word t l s,
  udb_ok U -> total_order leL -> (forall x, leL ninf x = true) -> (forall p y, log p = Ok y -> leL y ninf = false) ->
  load_lm U P L leP float_of_str log min_counts files = Ok m ->
  Permutation PREFIXES (lx_prefixes lx) -> Forall (fun c => u_space U c = false) word ->
  let w := lower U word in let attested x := lm_contains P L m x = true in let known x := has_ngram P L zero ninf m x 1 = true in
  (forall l' s', ~ is_special t w l' s') -> (forall p b l' s', is_prefix (map lit prefix_words) p -> w = p ++ b -> ~ is_irregular lx t b l' s') ->
  inflected t w l s ->
  known l \/ (exists p b, reads_prefix w p /\ l = p ++ b /\ 3 <= length b /\ known b) ->
  (forall l' s' p b, inflected t w l' s' -> l' <> l -> is_prefix (map lit prefix_words) p -> l' = p ++ b -> unheard attested b) ->
  (lemmatize U P L leL zero ninf m lx word t = Ok (l, Some s) <-> ~ hidden known (lx_adjs lx) t w l).
Proof.
  intros U P L leP leL zero ninf fl lg mcs files m lx word t l s OK H1 H2 H3 H4 HP Hns w attested known Hs Ht HI Hk Hu.
  pose proof (loaded_best _ _ _ _ _ zero _ _ _ _ _ _ H1 H2 H3 H4) as BO.
  assert (IP : forall p, is_prefix (lx_prefixes lx) p -> is_prefix (map lit prefix_words) p).
  { intros p [->|[Hp|Hp]]; [left; reflexivity|right; left|right; right; exact Hp]. apply (Permutation_in _ (Permutation_sym HP)) in Hp. exact Hp. }
  apply (undone U OK P L leL zero ninf m BO lx HP word t l s Hns).
  - split; [|split].
    + destruct (full_match _ t) as [[l' s']|] eqn:E; [exfalso; apply (Hs l' s'); apply full_match_special; exact E|reflexivity].
    + destruct (irregular_lemma lx _ t) as [[l' s']|] eqn:E; [exfalso; apply (Ht [] w l' s'); [left; reflexivity|reflexivity|apply irregular_is; exact E]|reflexivity].
    + intros p b E. apply token_prefix_is in E. destruct E as [Ew Hp]. destruct (irregular_lemma lx b t) as [[l' s']|] eqn:E; [exfalso; apply (Ht p b l' s' (IP p Hp) Ew); apply irregular_is; exact E|reflexivity].
  - exact HI.
  - exact Hk.
  - intros l' s' p b Hi Hn Hp Eb. apply (Hu l' s' p b Hi Hn (IP p Hp) Eb).
Qed.
Print Assumptions C94_undone.

(** a form and its hypotheses; a form read with its prefix; forms that are hidden although their lemma is known *)
Lemma w_keys x : lm_contains Z (option Z) w_lm x = true -> In x (map lit ["cat"; "stop"; "make"; "color"; "theatre"; "stopped"; "planned"; "they make"; "cat make"]%string).
Proof.
  intros H. unfold lm_contains, dmem in H. destruct (dget str_eqb x (lm_details w_lm)) as [v|] eqn:E; [|discriminate]. apply (dget_In str_eqb str_eqb_ok) in E.
  apply (in_map fst) in E. cbn [fst] in E. revert E. assert (A : map fst (lm_details w_lm) = map lit ["cat"; "stop"; "make"; "color"; "theatre"; "stopped"; "planned"; "they make"; "cat make"]%string) by (vm_compute; reflexivity). rewrite A. auto.
Qed.
Lemma w_unheard p b l : l = p ++ b -> In l (map lit ["stopp"; "stoppe"]%string) -> unheard (fun x => lm_contains Z (option Z) w_lm x = true) b.
Proof.
  intros E Hl. apply (f_equal (@rev _)) in E. rewrite rev_app_distr in E. split.
  - intros H. apply w_keys in H. cbn in H. cbn in Hl. repeat (destruct H as [H|H]; [rewrite <- H in E; repeat (destruct Hl as [Hl|Hl]; [rewrite <- Hl in E; cbn in E; discriminate|]); destruct Hl|]). destruct H.
  - intros y H. apply w_keys in H. assert (H' : exists z, rev b ++ 32%N :: rev y = rev (lit z) /\ (z = "they make" \/ z = "cat make")%string).
    { rewrite <- (rev_involutive (y ++ _)), rev_app_distr in H. cbn [rev] in H. rewrite <- app_assoc in H. cbn [app] in H. 
      apply in_map_iff in H. destruct H as (z & Ez & H). exists z. split; [rewrite Ez, rev_involutive; reflexivity|]. apply (f_equal (@rev _)) in Ez. rewrite rev_involutive in Ez.
      assert (I : In 32%N (rev (lit z))) by (rewrite Ez; apply in_elt).
      cbn in H. repeat (destruct H as [<-|H]; [try (right; reflexivity); try (left; reflexivity); exfalso; cbn in I; intuition discriminate|]). destruct H. }
    destruct H' as (z & Ez & Hz). cbn in Hl. assert (F : forall k, rev b ++ k = 101%N :: 107%N :: 97%N :: 109%N :: 32%N :: List.tl (List.tl (List.tl (List.tl (List.tl (rev b ++ k))))) -> b = [] \/ exists c, rev b = 101%N :: c /\ (c = [] \/ exists c', c = 107%N :: c')).
    { intros k Hk. destruct (rev b) as [|a0 [|a1 c]] eqn:Eb.
      - left. rewrite <- (rev_involutive b), Eb. reflexivity.
      - right. cbn in Hk. injection Hk as -> _. exists []. auto.
      - right. cbn in Hk. injection Hk as -> -> _. eauto. }
    assert (G : b = [] \/ exists c, rev b = 101%N :: c /\ (c = [] \/ exists c', c = 107%N :: c')) by (eapply (F (32%N :: rev y)); rewrite Ez; destruct Hz as [-> | ->]; reflexivity).
    clear F. destruct G as [->|(c & Ec & [->|(c' & ->)])].
    + cbn in Ez. destruct Hz as [-> | ->]; discriminate.
    + rewrite Ec in Ez. destruct Hz as [-> | ->]; discriminate.
    + rewrite Ec in E. repeat (destruct Hl as [Hl|Hl]; [rewrite <- Hl in E; discriminate|]). destruct Hl.
Qed.
Lemma w_forms l s : inflected VERB (lit "stopping") l s -> In l (map lit ["stop"; "stopp"; "stoppe"]%string).
Proof.
  intros H. apply inflected_rev in H. change (rev (lit "stopping")) with (rev (lit "ing") ++ rev (lit "stopp")) in H. assert (G : In (rev l) (map (fun x => rev (lit x)) ["stop"; "stopp"; "stoppe"]%string)).
  { remember (rev l) as rl eqn:El. clear El. destruct H as [y n old new s H Hn Er|y d n old new s H Hd Hn Er|y u d old s H Hu Hd Er]; [entries H; injection H as <- <- <- <-|entries H; injection H as <- <- <- <-|entries H; injection H as <- <-]; lits; try discriminate Er; injection Er; intros; subst; cbn; auto. all: discriminate. }
  rewrite <- (rev_involutive l). apply in_map_iff in G. destruct G as (x & <- & Hx). rewrite rev_involutive. apply in_map. exact Hx.
Qed.
Example C94_witness :
  (forall l' s', ~ is_special VERB (lit "stopping") l' s') /\
  (forall p b l' s', is_prefix (map lit prefix_words) p -> lit "stopping" = p ++ b -> ~ is_irregular w_lx VERB b l' s') /\
  inflected VERB (lit "stopping") (lit "stop") PROGRESSIVE /\ has_ngram Z (option Z) 0%Z None w_lm (lit "stop") 1 = true /\
  (forall l' s' p b, inflected VERB (lit "stopping") l' s' -> l' <> lit "stop" -> is_prefix (map lit prefix_words) p -> l' = p ++ b -> unheard (fun x => lm_contains Z (option Z) w_lm x = true) b) /\
  w_lemmatize (lit "Stopping") VERB = Ok (lit "stop", Some PROGRESSIVE) /\
  ~ hidden (fun x => has_ngram Z (option Z) 0%Z None w_lm x 1 = true) (lx_adjs w_lx) VERB (lit "stopping") (lit "stop") /\
  w_lemmatize (lit "re-making") VERB = Ok (lit "re-make", Some PROGRESSIVE) /\ w_lemmatize (lit "mismakes") VERB = Ok (lit "mismake", Some THIRD_PERSON).
Proof.
  split; [intros l' s' (f & lm & Hin & Ew & _); cbn in Hin; repeat (destruct Hin as [Hin|Hin]; [injection Hin as; subst; discriminate|]); destruct Hin|].
  split.
  { intros p b l' s' _ Ew H. apply (f_equal (@rev _)) in Ew. rewrite rev_app_distr in Ew. destruct H as [(Ht & _)|[(_ & [Hi|Hi] & _)|[(Ht & _)|(Ht & _)]]]; try discriminate Ht.
    - cbn in Hi. destruct Hi as [Hi|[Hi|[]]]; injection Hi as <- <-; discriminate Ew.
    - cbn in Hi. destruct Hi as [Hi|[]]; injection Hi as <- <-; discriminate Ew. }
  split; [apply (inflected_doubled VERB _ (lit "st") 111%N 112%N "ing"%string); [left; reflexivity|cbn; auto 10|cbn; auto 20|reflexivity]|].
  split; [vm_compute; reflexivity|].
  split; [intros l' s' p b Hi Hn _ Eb; apply (w_unheard p b l' Eb); apply w_forms in Hi; cbn in Hi; destruct Hi as [Hi|Hi]; [exfalso; apply Hn; rewrite <- Hi; reflexivity|exact Hi]|].
  split; [vm_compute; reflexivity|]. split; [|split; vm_compute; reflexivity].
  assert (U0 : w_lemmatize (lit "Stopping") VERB = Ok (lit "stop", Some PROGRESSIVE)) by (vm_compute; reflexivity).
  intros F. apply hidden_rev in F. destruct F as [n old news y d H Hd Hn Er Hl|y Ht Hn Er Hl|y u d old s H Hy Hu Hd Er El|u d old s H Hu Hd Er El|y Ht Er Ha Hl Hd|Ht Er Hx Hk]; try discriminate.
  - entries H; injection H as <- <- <-; discriminate Er.
Qed.
Print Assumptions C94_witness.

(** a model that has counted trick, sieve and boss: none of tricking, tricked, tricks, sieves is undone; bosses is *)
Definition h_lm : lm Z (option Z) :=
  let tab a := lit a ++ [9%N] ++ lit "3" ++ [9%N] ++ lit "20" ++ [10%N] in
  match w_load [1%Z] [[tab "trick"%string; tab "sieve"%string; tab "boss"%string]] with Ok m => m | Err _ => {| lm_max_order := 0; lm_details := []; lm_next := [] |} end.
Definition h_lemmatize := lemmatize ascii_udb Z (option Z) w_leL 0%Z None h_lm w_lx.
Example C94_hidden_witness :
  Forall (fun x => has_ngram Z (option Z) 0%Z None h_lm (lit x) 1 = true) ["trick"; "sieve"; "boss"]%string /\
  (h_lemmatize (lit "tricking") VERB = Ok (lit "tricking", None) /\ inflected VERB (lit "tricking") (lit "trick") PROGRESSIVE /\
   hidden (fun x => has_ngram Z (option Z) 0%Z None h_lm x 1 = true) (lx_adjs w_lx) VERB (lit "tricking") (lit "trick")) /\
  h_lemmatize (lit "tricked") VERB = Ok (lit "tricked", None) /\ h_lemmatize (lit "tricks") VERB = Ok (lit "tricks", None) /\ h_lemmatize (lit "sieves") NOUN = Ok (lit "sieves", None) /\
  h_lemmatize (lit "tricks") NOUN = Ok (lit "trick", Some PLURAL) /\
  h_lemmatize (lit "bosses") NOUN = Ok (lit "boss", Some PLURAL).
Proof.
  split; [repeat (constructor; [vm_compute; reflexivity|]); constructor|]. repeat split; try (vm_compute; reflexivity).
  - change (lit "trick") with (lit "trick" ++ lit ""). eapply inflected_plain; [|shelve|reflexivity]. cbn. auto 20.
    Unshelve. vm_compute. lia.
  - eapply (hidden_ending _ _ _ _ _ 2 "icking"%string ["ic"%string] [116%N] 114%N); [left; reflexivity|cbn; auto 30|cbn; lia|reflexivity|].
    intros new [<-|[]]. discriminate.
Qed.
