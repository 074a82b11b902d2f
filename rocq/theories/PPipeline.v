(** C11, C12 and C18: the pipeline. Each theorem is followed by a case that meets its hypotheses. *)
From Coq Require Import Ascii String.
From Coq Require Import List NArith ZArith Arith Bool Lia.
From Verif Require Import PyBase Regex MUtils MTree MVector MParser MNgram MLangModel MNormal MNode MSem MTokenizer MSentencizer MPipeline SUtils SNormal SLangModel SVector STree SParser SPipeline LBase LUtils LText LUdb LTree LVector LParser LParserCall LLangModel LNormal LLogic LPipeline PNormal.
Import ListNotations.
Local Open Scope nat_scope.

(** ** C11 *)
Theorem C11_resplit : forall token_lists,
  (exists pieces, Forall2 resplit token_lists pieces /\ split_tokens token_lists = concat pieces) /\
  (forall tokens, In tokens (split_tokens token_lists) -> length tokens <= 50).
Proof. intros tl. split; [apply split_tokens_ok|]. intros t. apply split_tokens_short. Qed.
(** the specification determines the result *)
Theorem C11_resplit_unique : forall tokens out out', resplit tokens out -> resplit tokens out' -> out = out'.
Proof.
  intros tokens out out' H H'. destruct H as [H|r H HR]; destruct H' as [H'|r' H' HR']; try lia; [reflexivity|].
  rewrite (maximal_runs_fun _ _ _ _ HR HR'). reflexivity.
Qed.
Definition c11_long : list str := repeat (lit "a") 20 ++ [lit ";"] ++ repeat (lit "b") 51 ++ [lit "("; lit ")"] ++ [lit "c"].
Example C11_witness : split_tokens [repeat (lit "x") 50; c11_long; [lit "y"; lit ";"]] = [repeat (lit "x") 50; repeat (lit "a") 20; [lit "c"]; [lit "y"; lit ";"]].
Proof. vm_compute. reflexivity. Qed.

(** The pipeline of the witnesses: three-word sentences are read as subject, verb, object. *)
Definition p_models : models unit := {|
  ptags_model := fun _ _ => 0 :: 8 :: 14 :: 8 :: repeat 0 48; pdeps_model := fun _ _ _ => 0 :: 24 :: 2 :: 18 :: repeat 0 48;
  trans_model := fun _ _ _ _ m1 _ => if nth 1 m1 false then 0 else 1 |}.
Lemma p_models_ok : models_ok unit p_models.
Proof.
  assert (F : forall b l, forallb (fun c => c <? b) l = true -> Forall (fun c => c < b) l).
  { intros b l H. apply Forall_forall. intros x Hx. rewrite forallb_forall in H. apply Nat.ltb_lt. auto. }
  split; [intros; split; [reflexivity|apply F; reflexivity]..|]. intros t d c w m1 m2. cbn. destruct (nth 1 m1 false); lia.
Qed.
Lemma w_nonblank x : lm_contains _ _ w_lm x = true -> nonblank ascii_udb x.
Proof.
  unfold lm_contains. intros H. assert (D : forallb (fun '(k, _) => existsb (fun c => negb (u_space ascii_udb c)) k) (lm_details w_lm) = true) by (vm_compute; reflexivity).
  assert (G : exists v, In (x, v) (lm_details w_lm)).
  { revert H. generalize (lm_details w_lm) as dd. induction dd as [|[k v] dd IH]; cbn; [discriminate|]. intros H.
    unfold dmem in H, IH. cbn in H. destruct (str_eqb x k) eqn:E; [apply str_eqb_eq in E; subst; eauto|]. destruct (IH H) as [v' Hv]. eauto. }
  destruct G as [v Hv]. rewrite forallb_forall in D. specialize (D _ Hv). cbn beta iota in D. apply existsb_exists in D. destruct D as (c & Hc & Hs).
  exists c. split; [exact Hc|]. apply negb_true_iff in Hs. exact Hs.
Qed.
Definition p_sentencize : str -> res (list (list str)) := sentencize ascii_udb (tokenize ascii_udb).
Definition p_call := pipeline_call unit tt ascii_udb p_models [] [] Z (option Z) w_leL 0%Z None w_lm w_lx [lit "cat"] p_sentencize.

(** ** C18 *)
(** [m] is any language model read from files (of any contents, no n-gram being blank), [lx] and [nouns] are any word lists *)
Theorem C18_logic_never_raises : forall (V : Type) (v0 : V) (U : udb) (M : models V) cs ws
    (P L : Type) (leP : P -> P -> bool) (leL : L -> L -> bool) zero ninf float_of_str (log : P -> res L) min_counts files m lx nouns,
  total_order leL -> antisym leL -> (forall x, leL ninf x = true) -> (forall p l, log p = Ok l -> leL l ninf = false) ->
  load_lm U P L leP float_of_str log min_counts files = Ok m -> (forall x, lm_contains P L m x = true -> nonblank U x) ->
  models_ok V M -> ws_ok V ws ->
  forall tokens, length tokens <= 50 ->
  (exists tags tree, parsed V v0 U M cs ws tokens tags tree) /\
  (forall tags tree, parsed V v0 U M cs ws tokens tags tree ->
     forall chunk, exists result, logic_process U P L leL zero ninf (lm_tokenize U) m lx nouns tokens tags tree chunk = Ok result).
Proof.
  intros V v0 U M cs ws P L leP leL zero ninf fl lg mc files m lx nouns HT HA H1 H2 H3 NB HM HW tokens Hl.
  pose proof (loaded_best _ _ _ _ _ zero _ _ _ _ _ _ HT H1 H2 H3) as BO. split.
  - destruct (parser_stages V v0 U M cs ws HM HW 1 [tokens] ltac:(lia)) as (ms & bs & its & done & trees & _ & _ & _ & _ & _ & _ & _ & HF); [intros t [<-|[]]; exact Hl|].
    inversion HF as [|? out ? ? HP]; subst. eauto.
  - intros tags tree Hp chunk. eapply logic_of_parsed; eauto.
Qed.
Example C18_witness : models_ok unit p_models /\ ws_ok unit [] /\ (forall x, lm_contains _ _ w_lm x = true -> nonblank ascii_udb x) /\
  w_load [1%Z; 1%Z] w_files = Ok w_lm /\ total_order w_leL /\ antisym w_leL.
Proof. split; [exact p_models_ok|]. split; [intros ? ? []|]. split; [exact w_nonblank|]. split; [apply w_loaded|]. split; apply w_order. Qed.

(** ** C12 *)
(** [pipeline_returns ... docs]: some execution of the threads returns [docs]. *)
Theorem C12_documents : forall (V : Type) (v0 : V) (U : udb) (M : models V) cs ws
    (P L : Type) (leP : P -> P -> bool) (leL : L -> L -> bool) zero ninf float_of_str (log : P -> res L) min_counts files m lx nouns sentencize,
  total_order leL -> antisym leL -> (forall x, leL ninf x = true) -> (forall p l, log p = Ok l -> leL l ninf = false) ->
  load_lm U P L leP float_of_str log min_counts files = Ok m -> (forall x, lm_contains P L m x = true -> nonblank U x) ->
  models_ok V M -> ws_ok V ws ->
  let returns := pipeline_returns V v0 U M cs ws P L leL zero ninf m lx nouns sentencize in
  forall texts sents chunk, Forall2 (fun text s => sentencize text = Ok s) texts sents ->
  (Z.of_nat (length texts) <= 2 ^ 53)%Z -> (Z.of_nat (length (concat (map split_tokens sents))) <= 2 ^ 53)%Z ->
  exists docs, length docs = length texts /\
    (forall nb_cores batch_size, (1 <= nb_cores)%Z -> 1 <= batch_size ->
       forall out, returns nb_cores (Z.of_nat batch_size) texts chunk out <-> out = docs) /\
    (forall i text doc, nth_error texts i = Some text -> nth_error docs i = Some doc ->
       document_of V v0 U M cs ws P L leL zero ninf m lx nouns sentencize chunk text doc /\
       forall nb_cores batch_size, (1 <= nb_cores)%Z -> 1 <= batch_size ->
         forall out, returns nb_cores (Z.of_nat batch_size) [text] chunk out <-> out = [doc]).
Proof.
  intros V v0 U M cs ws P L leP leL zero ninf fl lg mc files m lx nouns sz HT HA H1 H2 H3 NB HM HW returns texts sents chunk HS HL1 HL2.
  pose proof (loaded_best _ _ _ _ _ zero _ _ _ _ _ _ HT H1 H2 H3) as BO.
  pose proof (fun nb bs t s => pipeline_stages V v0 U M cs ws HM HW P L leL zero ninf m lx nouns HT HA BO NB sz nb bs t chunk s) as ST.
  destruct (ST 1%Z 1 texts sents ltac:(lia) ltac:(lia) HS HL1 HL2) as (docs & _ & _ & HD).
  assert (F2 : forall ts a b, Forall2 (document_of V v0 U M cs ws P L leL zero ninf m lx nouns sz chunk) ts a ->
      Forall2 (document_of V v0 U M cs ws P L leL zero ninf m lx nouns sz chunk) ts b -> a = b).
  { intros ts a b Ha; revert b. induction Ha as [|t d ts ds Hd Ha IH]; intros b Hb; inversion Hb; subst; [reflexivity|]. f_equal; [eapply document_fun; eauto|auto]. }
  exists docs. split; [symmetry; eapply Forall2_len; eauto|]. split.
  - intros nb bs Hn Hb out. destruct (ST nb bs texts sents Hn Hb HS HL1 HL2) as (docs' & R & _ & HD'). rewrite (F2 _ _ _ HD HD'). apply R.
  - intros i text doc Ht Hd.
    assert (Hdoc : document_of V v0 U M cs ws P L leL zero ninf m lx nouns sz chunk text doc).
    { clear - HD Ht Hd. revert i Ht Hd. induction HD as [|a b l l' Hab HD IH]; intros [|i] Ht Hd; cbn in *; try discriminate; [congruence|eauto]. }
    split; [exact Hdoc|]. intros nb bs Hn Hb out.
    assert (Hs : exists s, sz text = Ok s /\ length (split_tokens s) <= length (concat (map split_tokens sents))).
    { clear - HS Ht. revert i Ht. induction HS as [|a b l l' Hab HS IH]; intros [|i] Ht; cbn in *; try discriminate.
      - injection Ht as <-. exists b. split; [exact Hab|]. rewrite app_length. lia.
      - destruct (IH i Ht) as (s & E & Hl). exists s. split; [exact E|]. rewrite app_length. lia. }
    destruct Hs as (s & Es & Hl).
    destruct (ST nb bs [text] [s] Hn Hb) as (docs' & R & _ & HD'); [constructor; [exact Es|constructor]|cbn; lia|cbn; rewrite app_nil_r; lia|].
    assert (E : [doc] = docs') by (eapply F2; [constructor; [exact Hdoc|constructor]|exact HD']). rewrite E. apply R.
Qed.
(** the same for the documents' tuples: those of the sentences, in order *)
Theorem C12_document_tuples : forall doc : document, doc_stuples doc = concat doc.
Proof. intros doc. unfold doc_stuples. rewrite flat_map_concat_map, map_id. reflexivity. Qed.
Example C12_witness : exists s1 s2 s3, p_call 2 3 [lit "cats make cats" ++ [10%N] ++ lit "dogs see mice"; lit ""; lit "theatre stopped dogs"] true = Ok [[s1; s2]; [[]]; [s3]] /\
  length s1 = 2 /\ p_call 1 1 [lit "theatre stopped dogs"] true = Ok [[s3]].
Proof. do 3 eexists. split; [|split]; vm_compute; reflexivity. Qed.

Print Assumptions C11_resplit.
Print Assumptions C11_resplit_unique.
Print Assumptions C18_logic_never_raises.
Print Assumptions C12_documents.
