(** C86 and C87: calls of the pipeline with batches of predictions, the threads of its parallel maps, and its own sentencizer. *)
From Coq Require Import Ascii String.
From Coq Require Import List NArith ZArith Arith Bool Lia.
From Verif Require Import PyBase Regex MUtils MTree MVector MParser MBatch MNgram MLangModel MNormal MNode MSem MTokenizer MSentencizer MPipeline MFull SUtils SNormal SLangModel SVector STree SParser SPipeline SBatch SFull SText STok LBase LUtils LText LUdb LTree LVector LParser LParserCall LLangModel LNormal LLogic LPipeline LBatch LFull LTokText PNormal PTok PPipeline PBatch.
Import ListNotations.
Local Open Scope nat_scope.

(** The pipeline of the witnesses: its networks read sentences of three words as subject, verb, object. *)
Definition f_one : sentence_networks unit Z := {|
  one_tags := fun _ _ => map (b_row 17) (0 :: 8 :: 14 :: 8 :: repeat 0 48);
  one_deps := fun _ _ _ => map (b_row 25) (0 :: 24 :: 2 :: 18 :: repeat 0 48);
  one_trans := fun _ _ _ _ m1 _ => b_row 4 (if nth 1 m1 false then 0 else 1) |}.
Definition f_net : networks unit Z := {|
  net_tags := fun cs _ => Ok (map (fun _ => map (b_row 17) (0 :: 8 :: 14 :: 8 :: repeat 0 48)) cs);
  net_deps := fun _ cs _ => Ok (map (fun _ => map (b_row 25) (0 :: 24 :: 2 :: 18 :: repeat 0 48)) cs);
  net_trans := fun _ _ _ _ ms _ => Ok (map (fun m1 => b_row 4 (if nth 1 m1 false then 0 else 1)) ms) |}.
Lemma f_ok : total_order Z.leb /\ shapes_ok unit Z f_one /\ rowwise unit Z (charset_len b_cs) f_net f_one /\ charset_ok b_cs /\ ws_ok unit [].
Proof.
  split; [split; intros; destruct (Z.leb_spec a b); try lia; auto; right; apply Z.leb_le; lia|].
  assert (R : forall n k, k < n -> length (b_row n k) = n) by (intros n k Hk; unfold b_row; rewrite app_length; cbn [length]; rewrite !repeat_length; lia).
  assert (RF : forall n l, forallb (fun k => k <? n) l = true -> Forall (fun r : list Z => length r = n) (map (b_row n) l)).
  { intros n l H. apply Forall_forall. intros r Hr. apply in_map_iff in Hr. destruct Hr as (k & <- & Hk). apply R. rewrite forallb_forall in H. apply Nat.ltb_lt. auto. }
  split; [constructor; cbn [one_tags one_deps one_trans f_one]|].
  - intros. split; [reflexivity|apply RF; reflexivity].
  - intros. split; [reflexivity|apply RF; reflexivity].
  - intros. apply R. destruct (nth 1 m1 false); lia.
  - split; [constructor; intros l _ _; cbn; f_equal; rewrite map_map; apply map_ext; [intros [c w]|intros [[t c] w]|intros [[[[[t d] c] w] m1] m2]]; reflexivity|]. split; [|intros ? ? []]. split; [discriminate|]. intros c n [H|[H|[H|[]]]]; injection H as <- <-; cbn; lia.
Qed.
Definition f_returns := full_returns unit Z tt ascii_udb Z.leb f_net b_cs [] Z (option Z) w_leL 0%Z None w_lm w_lx [lit "cat"] p_sentencize.
Definition f_call := full_call unit Z tt ascii_udb Z.leb f_net b_cs [] Z (option Z) w_leL 0%Z None w_lm w_lx [lit "cat"] p_sentencize.

(** ** C86 *)
(** What holds for all texts. The texts are shared out among the cores; a share with a text that cannot be cut into sentences gives no
    document, and the call returns the documents of the other shares, in order, as if it had been called with their texts only.
    Missing for C86: the readable texts of a share with an unreadable text. *)
Theorem C86_partial : forall (V F : Type) (v0 : V) (U : udb) (le : F -> F -> bool) (N : networks V F) (S : sentence_networks V F) cs ws
    (P L : Type) (leP : P -> P -> bool) (leL : L -> L -> bool) zero ninf float_of_str (log : P -> res L) min_counts files m lx nouns sentencize,
  total_order le -> shapes_ok V F S -> rowwise V F (charset_len cs) N S -> charset_ok cs -> ws_ok V ws ->
  total_order leL -> antisym leL -> (forall x, leL ninf x = true) -> (forall p l, log p = Ok l -> leL l ninf = false) ->
  load_lm U P L leP float_of_str log min_counts files = Ok m -> (forall x, lm_contains P L m x = true -> nonblank U x) ->
  exists M, picks le S M /\
  let returns := full_returns V F v0 U le N cs ws P L leL zero ninf m lx nouns sentencize in
  forall texts nb_cores batch_size chunk, (1 <= nb_cores)%Z -> 1 <= batch_size -> (Z.of_nat (length texts) <= 2 ^ 53)%Z ->
  exists shares sents, divide_list texts nb_cores = Ok shares /\ concat shares = texts /\
    Forall2 (fun text s => sentencize text = Ok s) (kept sentencize shares) sents /\
    ((Z.of_nat (length (concat (map split_tokens sents))) <= 2 ^ 53)%Z ->
     exists docs, Forall2 (document_of V v0 U M cs ws P L leL zero ninf m lx nouns sentencize chunk) (kept sentencize shares) docs /\
       (forall out, returns nb_cores (Z.of_nat batch_size) texts chunk out <-> out = docs) /\
       (forall out, returns nb_cores (Z.of_nat batch_size) (kept sentencize shares) chunk out <-> out = docs)).
Proof.
  intros V F v0 U le N S cs ws P L leP leL zero ninf fl lg mc files m lx nouns sz TF HS HR HC HW HT HA H1 H2 H3 NB.
  pose proof (loaded_best _ _ _ _ _ zero _ _ _ _ _ _ HT H1 H2 H3) as BO. exists (models_of V F le S).
  split; [apply models_of_picks; assumption|]. intros returns texts nb bsz chunk Hn Hb HL.
  destruct (kept_returns sz texts nb Hn HL) as (shares & sents & E & C & K & RS & RI). exists shares, sents. split; [exact E|]. split; [exact C|].
  split; [apply mapM_Ok_Forall2; exact K|]. intros HL2.
  destruct (full_stages V F v0 U le N S cs ws HS HR HC HW P L leL zero ninf m lx nouns HT HA BO NB sz nb bsz texts chunk shares sents Hn Hb HL C K RS RI HL2) as (docs & R & _ & HD).
  exists docs. split; [exact HD|]. split; [exact R|]. pose proof (kept_length sz shares) as Lk. rewrite C in Lk.
  assert (HL' : (Z.of_nat (length (kept sz shares)) <= 2 ^ 53)%Z) by lia.
  destruct (kept_returns sz (kept sz shares) nb Hn HL') as (shares' & sents' & E' & C' & K' & RS' & RI').
  assert (KK : kept sz shares' = kept sz shares).
  { rewrite <- C'. apply kept_all. rewrite C'. intros t Ht. unfold kept in Ht. apply in_concat in Ht. destruct Ht as (l & Hl & Ht). apply filter_In in Hl. destruct Hl as [_ Hl]. rewrite forallb_forall in Hl. auto. }
  rewrite KK in K'. rewrite K in K'. injection K' as <-.
  destruct (full_stages V F v0 U le N S cs ws HS HR HC HW P L leL zero ninf m lx nouns HT HA BO NB sz nb bsz (kept sz shares) chunk shares' sents Hn Hb HL' C' ltac:(rewrite KK; exact K) RS' RI' HL2) as (docs' & R' & _ & HD').
  rewrite KK in HD'. assert (ED : docs = docs'); [|subst docs'; exact R'].
  clear - HD HD'. revert docs' HD'. induction HD as [|t d ts ds Hd HD IH]; intros b Hb; inversion Hb; subst; [reflexivity|]. f_equal; [eapply document_fun; eauto|auto].
Qed.
(** The property is false: the first text cannot be cut into sentences (C09), and the second one, whose document a call
    with it alone returns, gets no document either. *)
Definition f_texts : list str := map lit ["""a"" 'n' b.c/d"; "dogs see mice"; "theatre stopped dogs"; "cats make cats"]%string.
Theorem C86_refuted : exists docs doc, (forall out, f_returns 2 2 f_texts true out <-> out = docs) /\ length docs < length f_texts /\
  (forall text, In text (tl f_texts) -> readable p_sentencize text = true) /\
  f_call 1 2 [lit "dogs see mice"] true = Ok [doc] /\ ~ In doc docs.
Proof.
  destruct f_ok as (T & HS & HR & HC & HW). destruct w_order as (W1 & W2 & W3 & W4).
  pose proof (loaded_best _ _ _ _ _ 0%Z _ _ _ _ _ _ W1 W3 W4 (proj1 w_loaded)) as BO.
  destruct (kept_returns p_sentencize f_texts 2 ltac:(lia) ltac:(vm_compute; discriminate)) as (shares & sents & E & C & K & RS & RI).
  assert (ES : run_multithreads p_sentencize f_texts 2 = Ok [[map lit ["theatre"; "stopped"; "dogs"]%string]; [map lit ["cats"; "make"; "cats"]%string]]) by (vm_compute; reflexivity).
  rewrite ES in RS. injection RS as <-.
  destruct (full_stages unit Z tt ascii_udb Z.leb f_net f_one b_cs [] HS HR HC HW Z (option Z) w_leL 0%Z None w_lm w_lx [lit "cat"] W1 W2 BO w_nonblank p_sentencize 2 2 f_texts true shares _ ltac:(lia) ltac:(lia)
    ltac:(vm_compute; discriminate) C K ES RI ltac:(vm_compute; discriminate)) as (docs & R & EC & _).
  exists docs. pose (doc := match f_call 1 2 [lit "dogs see mice"] true with Ok (d :: _) => d | _ => [] end). exists doc.
  split; [exact R|]. assert (ED : f_call 2 2 f_texts true = Ok docs) by exact EC. clear R EC.
  assert (EV : exists d1 d2, f_call 2 2 f_texts true = Ok [d1; d2] /\ doc <> d1 /\ doc <> d2).
  { do 2 eexists. split; [vm_compute; reflexivity|]. split; intros H; vm_compute in H; discriminate H. }
  destruct EV as (d1 & d2 & EV & N1 & N2). rewrite EV in ED. injection ED as <-. split; [cbn; lia|]. split.
  - assert (F0 : forallb (readable p_sentencize) (tl f_texts) = true) by (vm_compute; reflexivity). rewrite forallb_forall in F0. exact F0.
  - split; [vm_compute; reflexivity|]. intros [H|[H|[]]]; [apply N1|apply N2]; symmetry; exact H.
Qed.
Example C86_witness : total_order Z.leb /\ shapes_ok unit Z f_one /\ rowwise unit Z (charset_len b_cs) f_net f_one /\ charset_ok b_cs /\ ws_ok unit [] /\ w_load [1%Z; 1%Z] w_files = Ok w_lm /\
  (forall x, lm_contains _ _ w_lm x = true -> nonblank ascii_udb x) /\ total_order w_leL /\ antisym w_leL /\
  exists shares, divide_list f_texts 2 = Ok shares /\ kept p_sentencize shares = skipn 2 f_texts.
Proof.
  destruct f_ok as (T & HS & HR & HC & HW). destruct w_order as (W1 & W2 & _). do 5 (split; [assumption|]). split; [apply w_loaded|]. split; [exact w_nonblank|]. do 2 (split; [assumption|]).
  eexists. split; [vm_compute; reflexivity|vm_compute; reflexivity].
Qed.

(** ** C87 *)
(** Every ordinary text gets its own document, from the pipeline's own sentencizer and tokenizer, whatever the other texts, the number of
    cores, the size of the batches and the execution of the threads. *)
Theorem C87_every_text : forall (V F : Type) (v0 : V) (U : udb) (le : F -> F -> bool) (N : networks V F) (S : sentence_networks V F) cs ws
    (P L : Type) (leP : P -> P -> bool) (leL : L -> L -> bool) zero ninf float_of_str (log : P -> res L) min_counts files m lx nouns,
  udb_ok U -> total_order le -> shapes_ok V F S -> rowwise V F (charset_len cs) N S -> charset_ok cs -> ws_ok V ws ->
  total_order leL -> antisym leL -> (forall x, leL ninf x = true) -> (forall p l, log p = Ok l -> leL l ninf = false) ->
  load_lm U P L leP float_of_str log min_counts files = Ok m -> (forall x, lm_contains P L m x = true -> nonblank U x) ->
  exists M, picks le S M /\
  let split := sentencize U (tokenize U) in
  let returns := full_returns V F v0 U le N cs ws P L leL zero ninf m lx nouns split in
  forall texts chunk, (Z.of_nat (length texts) <= 2 ^ 53)%Z -> (forall text, In text texts -> ordinary U text /\ forall c, In c text -> ~ reserved c) ->
  exists sents, Forall2 (fun text s => split text = Ok s) texts sents /\
    ((Z.of_nat (length (concat (map split_tokens sents))) <= 2 ^ 53)%Z ->
     exists docs, Forall2 (document_of V v0 U M cs ws P L leL zero ninf m lx nouns split chunk) texts docs /\
       (forall nb_cores batch_size, (1 <= nb_cores)%Z -> 1 <= batch_size -> forall out, returns nb_cores (Z.of_nat batch_size) texts chunk out <-> out = docs) /\
       (forall i text doc, nth_error texts i = Some text -> nth_error docs i = Some doc ->
          forall nb_cores batch_size, (1 <= nb_cores)%Z -> 1 <= batch_size -> forall out, returns nb_cores (Z.of_nat batch_size) [text] chunk out <-> out = [doc])).
Proof.
  intros V F v0 U le N S cs ws P L leP leL zero ninf fl lg mc files m lx nouns OK TF HS HR HC HW HT HA H1 H2 H3 NB.
  pose proof (loaded_best _ _ _ _ _ zero _ _ _ _ _ _ HT H1 H2 H3) as BO. exists (models_of V F le S).
  split; [apply models_of_picks; assumption|]. intros sz returns.
  assert (G : forall texts chunk sents, (Z.of_nat (length texts) <= 2 ^ 53)%Z -> mapM sz texts = Ok sents -> (Z.of_nat (length (concat (map split_tokens sents))) <= 2 ^ 53)%Z ->
    exists docs, Forall2 (document_of V v0 U (models_of V F le S) cs ws P L leL zero ninf m lx nouns sz chunk) texts docs /\
      forall nb bsz, (1 <= nb)%Z -> 1 <= bsz -> forall out, returns nb (Z.of_nat bsz) texts chunk out <-> out = docs).
  { intros texts chunk sents HL Em HL2. 
    assert (G1 : forall nb bsz, (1 <= nb)%Z -> 1 <= bsz -> exists docs, Forall2 (document_of V v0 U (models_of V F le S) cs ws P L leL zero ninf m lx nouns sz chunk) texts docs /\
      forall out, returns nb (Z.of_nat bsz) texts chunk out <-> out = docs).
    { intros nb bsz Hn Hb. destruct (kept_returns sz texts nb Hn HL) as (shares & sents' & E & C & K & RS & RI).
      assert (KA : kept sz shares = texts).
      { rewrite <- C at 1. apply kept_all. rewrite C. intros t Ht. apply mapM_Ok_Forall2 in Em. unfold readable. clear - Em Ht. induction Em as [|a b l l' Hab _ IH]; [destruct Ht|]. destruct Ht as [<-|Ht]; [rewrite Hab; reflexivity|auto]. }
      rewrite KA in K. rewrite Em in K. injection K as <-.
      destruct (full_stages V F v0 U le N S cs ws HS HR HC HW P L leL zero ninf m lx nouns HT HA BO NB sz nb bsz texts chunk shares sents Hn Hb HL C ltac:(rewrite KA; exact Em) RS RI HL2) as (docs & R & _ & HD).
      rewrite KA in HD. exists docs. split; [exact HD|exact R]. }
    destruct (G1 1%Z 1 ltac:(lia) ltac:(lia)) as (docs & HD & _). exists docs. split; [exact HD|]. intros nb bsz Hn Hb. destruct (G1 nb bsz Hn Hb) as (docs' & HD' & R).
    assert (ED : docs = docs'); [|subst docs'; exact R]. clear - HD HD'. revert docs' HD'. induction HD as [|t d ts ds Hd HD IH]; intros b Hb; inversion Hb; subst; [reflexivity|]. f_equal; [eapply document_fun; eauto|auto]. }
  intros texts chunk HL HO.
  assert (Em : exists sents, mapM sz texts = Ok sents).
  { apply mapM_ok_Forall. apply Forall_forall. intros t Ht. destruct (HO t Ht) as [Ho Hr]. apply (C09_partial U OK t Ho Hr). }
  destruct Em as [sents Em]. exists sents. split; [apply mapM_Ok_Forall2; exact Em|]. intros HL2. destruct (G texts chunk sents HL Em HL2) as (docs & HD & R). exists docs. split; [exact HD|]. split; [exact R|].
  intros i text doc Ht Hd nb bsz Hn Hb.
  assert (Hs : exists s, sz text = Ok s /\ length (split_tokens s) <= length (concat (map split_tokens sents)) /\ document_of V v0 U (models_of V F le S) cs ws P L leL zero ninf m lx nouns sz chunk text doc).
  { apply mapM_Ok_Forall2 in Em. clear - Em Ht Hd HD. revert i docs HD Ht Hd. induction Em as [|a b l l' Hab HS IH]; intros [|i] docs HD Ht Hd; cbn in *; try discriminate; inversion HD; subst; cbn in *.
    - injection Ht as <-. injection Hd as <-. exists b. split; [exact Hab|]. rewrite app_length. split; [lia|assumption].
    - destruct (IH i _ ltac:(eassumption) Ht Hd) as (s & E & Hl & Hdoc). exists s. split; [exact E|]. rewrite app_length. split; [lia|exact Hdoc]. }
  destruct Hs as (s & Es & Hl & Hdoc). destruct (G [text] chunk [s] ltac:(cbn; lia) ltac:(cbn; rewrite Es; reflexivity) ltac:(cbn; rewrite app_nil_r; lia)) as (docs1 & HD1 & R1).
  assert (ED : docs1 = [doc]); [|rewrite <- ED; apply R1; assumption]. inversion HD1 as [|? d1 ? l1 HH HN]; subst. inversion HN; subst. f_equal. eapply document_fun; eassumption.
Qed.
Example C87_witness : exists d1 d2 d3, f_call 2 2 (map lit ["He said ""no."" (x) y? ok"; "dogs see mice"; "cats make cats"]%string) true = Ok [d1; d2; d3] /\ length d1 = 3 /\
  f_call 1 5 [lit "dogs see mice"] true = Ok [d2] /\ d2 <> d3 /\
  forall text, In text (map lit ["He said ""no."" (x) y? ok"; "dogs see mice"; "cats make cats"]%string) -> ordinary ascii_udb text /\ forall c, In c text -> ~ reserved c.
Proof.
  do 3 eexists. split; [vm_compute; reflexivity|]. split; [vm_compute; reflexivity|]. split; [vm_compute; reflexivity|]. split; [intros H; vm_compute in H; discriminate H|].
  intros t Ht. assert (F1 : forallb (fun t => ordinaryb ascii_udb t && forallb (fun c => (c <? 3000)%N) t) (map lit ["He said ""no."" (x) y? ok"; "dogs see mice"; "cats make cats"]%string) = true) by (vm_compute; reflexivity).
  rewrite forallb_forall in F1. specialize (F1 t Ht). apply andb_true_iff in F1. destruct F1 as [Fo Fr]. split; [apply ordinaryb_ok; exact Fo|].
  intros c Hc. rewrite forallb_forall in Fr. specialize (Fr c Hc). apply N.ltb_lt in Fr. intros Hr. cbn in Hr. destruct Hr as [<-|[<-|[<-|[<-|[]]]]]; lia.
Qed.

Print Assumptions C86_refuted.
Print Assumptions C86_partial.
Print Assumptions C87_every_text.
