(** C82: the entry points that return every step for the first sentence (pipeline/pipeline.py:88-102). *)
From Coq Require Import Ascii String.
From Coq Require Import List NArith ZArith Arith Bool Lia.
From Verif Require Import PyBase Regex MUtils MTree MVector MParser MNgram MLangModel MNormal MNode MSem MTokenizer MSentencizer MPipeline MDebug.
From Verif Require Import SUtils SNormal SLangModel SVector STree SParser SPipeline LBase LUdb LParserCall LLangModel LNormal LPipeline LDebug PNormal PPipeline.
Import ListNotations.
Local Open Scope nat_scope.

(** * C82 *)
(** When no sentence has more than 50 tokens: what is returned is the first sentence, its parse, the nodes made from it and its tuples,
    and these are the tuples of the first sentence in the document the pipeline makes from the text. *)
Theorem C82_first_sentence : forall (V : Type) (v0 : V) (U : udb) (M : models V) cs ws
    (P L : Type) (leP : P -> P -> bool) (leL : L -> L -> bool) zero ninf float_of_str (log : P -> res L) min_counts files m lx nouns sentencize,
  total_order leL -> antisym leL -> (forall x, leL ninf x = true) -> (forall p l, log p = Ok l -> leL l ninf = false) ->
  load_lm U P L leP float_of_str log min_counts files = Ok m -> (forall x, lm_contains P L m x = true -> nonblank U x) ->
  models_ok V M -> ws_ok V ws ->
  let logic := logic_process U P L leL zero ninf (lm_tokenize U) m lx nouns in
  let returns := pipeline_returns V v0 U M cs ws P L leL zero ninf m lx nouns sentencize in
  forall text tokens rest, sentencize text = Ok (tokens :: rest) -> (Z.of_nat (length (tokens :: rest)) <= 2 ^ 53)%Z ->
  (forall t, In t (tokens :: rest) -> length t <= 50) ->
  exists tags tree H R d s others, parsed V v0 U M cs ws tokens tags tree /\ logic tokens tags tree true = Ok (H, R, d, s) /\
    forall nb_cores batch_size, (1 <= nb_cores)%Z -> 1 <= batch_size ->
    test_process V v0 U M cs ws P L leL zero ninf m lx nouns sentencize nb_cores (Z.of_nat batch_size) text = Ok (tokens, tags, tree, (H, R, d), s) /\
    test_parse V v0 U M cs ws P L leL zero ninf m lx nouns sentencize nb_cores (Z.of_nat batch_size) (InText text) = Ok (tokens, tags, tree, (H, R, d)) /\
    forall out, returns nb_cores (Z.of_nat batch_size) [text] true out <-> out = [s :: others].
Proof.
  intros V v0 U M cs ws P L leP leL zero ninf fl lg mc files m lx nouns sz HT HA H1 H2 H3 NB HM HW logic returns text tokens rest Es HL Hlen.
  pose proof (loaded_best _ _ _ _ _ zero _ _ _ _ _ _ HT H1 H2 H3) as BO.
  destruct (test_process_ok V v0 U M cs ws HM HW P L leL zero ninf m lx nouns HT HA BO NB sz 1 1 text tokens rest ltac:(lia) ltac:(lia) Es HL Hlen)
    as (tg & tr & H & R & d & s & (Hp & El) & _ & _).
  assert (ES : split_tokens (tokens :: rest) = tokens :: rest).
  { assert (Hl : Forall (fun x => length x <= 50) (tokens :: rest)) by (apply Forall_forall; exact Hlen).
    destruct (split_tokens_ok (tokens :: rest)) as (pieces & HF & ->). clear - HF Hl. revert HF Hl. generalize (tokens :: rest) as l. intros l HF.
    induction HF as [|x p l ps Hr HF IH]; intros Hl; [reflexivity|]. inversion Hl; subst. cbn [concat]. rewrite IH by assumption. destruct Hr; [reflexivity|lia]. }
  destruct (C12_documents V v0 U M cs ws P L leP leL zero ninf fl lg mc files m lx nouns sz HT HA H1 H2 H3 NB HM HW [text] [tokens :: rest] true) as (docs & Ld & HR & Hdoc).
  { constructor; [exact Es|constructor]. } { cbn. lia. } { cbn [map concat]. rewrite app_nil_r, ES. exact HL. }
  destruct docs as [|doc [|? ?]]; try discriminate. destruct (Hdoc 0 text doc eq_refl eq_refl) as [(ss & Ess & HF) _]. rewrite Es in Ess. injection Ess as <-. rewrite ES in HF.
  inversion HF as [|? s0 ? others (tg0 & tr0 & H0 & R0 & d0 & Hp0 & El0) HF']; subst doc. subst.
  destruct (parsed_fun V v0 U M cs ws _ _ _ _ _ Hp Hp0) as [<- <-]. rewrite El in El0. injection El0 as _ _ _ <-.
  exists tg, tr, H, R, d, s, others. split; [exact Hp|]. split; [exact El|]. intros nb bs Hn Hb.
  destruct (test_process_ok V v0 U M cs ws HM HW P L leL zero ninf m lx nouns HT HA BO NB sz nb bs text tokens rest Hn Hb Es HL Hlen)
    as (tg1 & tr1 & H1' & R1 & d1 & s1 & (Hp1 & El1) & E1 & E2).
  destruct (parsed_fun V v0 U M cs ws _ _ _ _ _ Hp Hp1) as [<- <-]. rewrite El in El1. injection El1 as <- <- <- <-.
  split; [exact E1|]. split; [exact E2|]. intros out. exact (HR nb bs Hn Hb out).
Qed.
(** A list of tokens is parsed as one sentence. *)
Theorem C82_tokens : forall (V : Type) (v0 : V) (U : udb) (M : models V) cs ws
    (P L : Type) (leP : P -> P -> bool) (leL : L -> L -> bool) zero ninf float_of_str (log : P -> res L) min_counts files m lx nouns sentencize,
  total_order leL -> antisym leL -> (forall x, leL ninf x = true) -> (forall p l, log p = Ok l -> leL l ninf = false) ->
  load_lm U P L leP float_of_str log min_counts files = Ok m -> (forall x, lm_contains P L m x = true -> nonblank U x) ->
  models_ok V M -> ws_ok V ws ->
  forall tokens, length tokens <= 50 ->
  exists tags tree H R d s, parsed V v0 U M cs ws tokens tags tree /\
    logic_process U P L leL zero ninf (lm_tokenize U) m lx nouns tokens tags tree true = Ok (H, R, d, s) /\
    forall nb_cores batch_size, (1 <= nb_cores)%Z -> 1 <= batch_size ->
    test_parse V v0 U M cs ws P L leL zero ninf m lx nouns sentencize nb_cores (Z.of_nat batch_size) (InTokens tokens) = Ok (tokens, tags, tree, (H, R, d)).
Proof.
  intros V v0 U M cs ws P L leP leL zero ninf fl lg mc files m lx nouns sz HT HA H1 H2 H3 NB HM HW tokens Hl.
  pose proof (loaded_best _ _ _ _ _ zero _ _ _ _ _ _ HT H1 H2 H3) as BO.
  destruct (test_tokens_ok V v0 U M cs ws HM HW P L leL zero ninf m lx nouns HT HA BO NB sz 1 1 tokens ltac:(lia) ltac:(lia) Hl) as (tg & tr & H & R & d & s & (Hp & El) & _).
  exists tg, tr, H, R, d, s. split; [exact Hp|]. split; [exact El|]. intros nb bs Hn Hb.
  destruct (test_tokens_ok V v0 U M cs ws HM HW P L leL zero ninf m lx nouns HT HA BO NB sz nb bs tokens Hn Hb Hl) as (tg1 & tr1 & H1' & R1 & d1 & s1 & (Hp1 & El1) & E).
  destruct (parsed_fun V v0 U M cs ws _ _ _ _ _ Hp Hp1) as [<- <-]. rewrite El in El1. injection El1 as <- <- <- <-. exact E.
Qed.

Definition d_process := test_process unit tt ascii_udb p_models [] [] Z (option Z) w_leL 0%Z None w_lm w_lx [lit "cat"] p_sentencize.
Definition d_parse := test_parse unit tt ascii_udb p_models [] [] Z (option Z) w_leL 0%Z None w_lm w_lx [lit "cat"] p_sentencize.
Definition d_text : str := lit "cats make cats" ++ [10%N] ++ lit "dogs see mice".
(** the returned values but the attributes of the nodes, which are functions *)
Definition seen (r : res (list str * list tag * option tree * nodes_of * list stuple)) :=
  rbind r (fun '(toks, tg, tr, (H, R, d), s) => Ok (toks, tg, tr, map (fun k => (k, n_canon (H k))) (dkeys d), s)).
Example C82_witness : p_sentencize d_text = Ok [map lit ["cats"; "make"; "cats"]%string; map lit ["dogs"; "see"; "mice"]%string] /\
  exists s s2 t, seen (d_process 2 3 d_text) = Ok (map lit ["cats"; "make"; "cats"]%string, [NOUN; VERB; NOUN], Some t, [(0, lit "cat"); (1, lit "make"); (2, lit "cat")], s) /\
    length s = 2 /\ p_call 2 3 [d_text] true = Ok [[s; s2]] /\
    rbind (d_parse 1 1 (InTokens (map lit ["cats"; "make"; "cats"]%string))) (fun '(toks, tg, tr, _) => Ok (toks, tg, tr)) = Ok (map lit ["cats"; "make"; "cats"]%string, [NOUN; VERB; NOUN], Some t) /\
    t_root t = 1.
Proof. split; [vm_compute; reflexivity|]. do 3 eexists. split; [vm_compute; reflexivity|]. split; [vm_compute; reflexivity|]. split; [vm_compute; reflexivity|]. split; vm_compute; reflexivity. Qed.
(** Sentences are not split again: when one has more than 50 tokens its thread gives nothing, and what is returned for the first sentence
    can be the parse of the second one; with one thread there is an IndexError. The pipeline itself drops the long sentence. *)
Definition d_long : str := flat_map (fun _ => lit "dogs ") (seq 0 51) ++ [10%N] ++ lit "cats make cats".
Theorem C82_long_sentence : exists tokens rest, p_sentencize d_long = Ok [tokens; rest] /\ length tokens = 51 /\ length rest = 3 /\
  (exists tags tree nodes s, seen (d_process 2 3 d_long) = Ok (tokens, tags, tree, nodes, s) /\ length tags = 3 /\ s <> [] /\ parsed unit tt ascii_udb p_models [] [] rest tags tree) /\
  d_process 1 3 d_long = Err IndexError /\
  exists s, p_call 2 3 [d_long] true = Ok [[s]].
Proof.
  do 2 eexists. split; [vm_compute; reflexivity|]. split; [reflexivity|]. split; [reflexivity|]. split; [|split; [vm_compute; reflexivity|eexists; vm_compute; reflexivity]].
  destruct (parser_call_ok unit tt ascii_udb p_models [] [] p_models_ok ltac:(intros ? ? []) 1 1 [map lit ["cats"; "make"; "cats"]%string] ltac:(lia) ltac:(lia) ltac:(cbn; lia)) as (tags & trees & E & _ & _ & HF).
  { intros t [<-|[]]. unfold MAX_SENT_LENGTH. cbn. lia. }
  vm_compute in E. injection E as <- <-. inversion HF as [|? ? ? ? HP _]; subst. cbn [fst snd] in HP.
  do 4 eexists. split; [vm_compute; reflexivity|]. split; [reflexivity|]. split; [discriminate|]. exact HP.
Qed.

Print Assumptions C82_first_sentence.
Print Assumptions C82_tokens.
Print Assumptions C82_long_sentence.
