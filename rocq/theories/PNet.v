(** C97: the networks (syntax/models.py) answer each sentence on its own. *)
From Coq Require Import Ascii String.
From Coq Require Import List NArith ZArith Arith Bool Lia.
From Verif Require Import PyBase Regex MUtils MTree MVector MParser MBatch MNgram MLangModel MNormal MNode MSem MTokenizer MSentencizer MPipeline MFull SUtils SNormal SLangModel SVector STree SParser SPipeline SBatch SFull SText STok LBase LUtils LText LUdb LTree LVector LParser LParserCall LLangModel LNormal LLogic LPipeline LBatch LFull LTokText PNormal PTok PPipeline PBatch MNet SNet LNet PFull.
Import ListNotations.
Local Open Scope nat_scope.

(** ** C97 *)
(** Whatever the weights and whatever the arithmetic, the networks never raise on a batch of well-formed matrices, and what they say of a
    sentence is what they say of it alone, 52 rows of 17 or 25 probabilities or one row of 4: sentences are not mixed up by the selection
    of the states or the parts of 32 in which Keras predicts. *)
Theorem C97_networks : forall (V F State : Type) (cast : V -> F) f0 feq fmax relu softmax affine (w_ptags w_pdeps w_trans : weights F State) nb_chars,
  (forall l, length (softmax l) = length l) -> sized nb_chars 17 w_ptags -> sized nb_chars 25 w_pdeps -> sized nb_chars 4 w_trans ->
  exists S, shapes_ok V F S /\
    rowwise V F nb_chars (library_networks V F cast f0 feq fmax relu softmax affine State w_ptags w_pdeps w_trans) S.
Proof.
  intros V F State cast f0 feq fmax relu softmax affine wt wd wr n SM Zt Zd Zr.
  exists (library_one V F cast f0 feq fmax relu softmax affine State wt wd wr). split; [eapply library_shapes; eauto|apply library_rowwise; assumption].
Qed.
(** What a word is made of for the networks depends on its characters alone, not on its place, the other words or the sentence. *)
Theorem C97_words : forall (F State : Type) f0 fmax relu affine (w : weights F State) nb_chars out chars chars', sized nb_chars out w ->
  char_matrix nb_chars chars -> char_matrix nb_chars chars' ->
  exists rows rows', char_model F f0 fmax relu affine State w chars = Ok rows /\ char_model F f0 fmax relu affine State w chars' = Ok rows' /\
    length rows = 52 /\ length rows' = 52 /\
    (forall i j, i < 52 -> j < 52 -> nth_error chars i = nth_error chars' j -> nth_error rows i = nth_error rows' j).
Proof.
  intros F State f0 fmax relu affine w n out c c' Z Hc Hc'. do 2 eexists. split; [eapply char_model_ok; eauto|]. split; [eapply char_model_ok; eauto|].
  rewrite !map_length. split; [apply Hc|]. split; [apply Hc'|]. intros i j _ _ E. rewrite !nth_error_map, E. reflexivity.
Qed.
(** So the parser gives each list of at most 50 tokens the tags and the tree that its most probable classes lead to, and the result does
    not depend on the number of threads or the size of the batches. *)
Theorem C97_parser : forall (V F State : Type) (v0 : V) (U : udb) (le : F -> F -> bool) (cast : V -> F) f0 feq fmax relu softmax affine
    (w_ptags w_pdeps w_trans : weights F State) cs ws,
  (forall l, length (softmax l) = length l) -> total_order le -> charset_ok cs -> ws_ok V ws ->
  sized (charset_len cs) 17 w_ptags -> sized (charset_len cs) 25 w_pdeps -> sized (charset_len cs) 4 w_trans ->
  let N := library_networks V F cast f0 feq fmax relu softmax affine State w_ptags w_pdeps w_trans in
  exists S M, shapes_ok V F S /\ rowwise V F (charset_len cs) N S /\ picks le S M /\
    (forall token_lists, (Z.of_nat (length token_lists) <= 2 ^ 53)%Z -> (forall tokens, In tokens token_lists -> length tokens <= 50) ->
       exists tags trees, length tags = length token_lists /\ length trees = length token_lists /\
         Forall2 (fun tokens out => parsed V v0 U M cs ws tokens (fst out) (snd out)) token_lists (combine tags trees) /\
         (forall nb_processes batch_size, (1 <= nb_processes)%Z -> 1 <= batch_size ->
            batched_call V F v0 U le N cs ws nb_processes (Z.of_nat batch_size) token_lists = Ok (tags, trees))).
Proof.
  intros V F State v0 U le cast f0 feq fmax relu softmax affine wt wd wr cs ws SM T HC HW Zt Zd Zr N.
  destruct (C97_networks V F State cast f0 feq fmax relu softmax affine wt wd wr _ SM Zt Zd Zr) as (S & HS & HR). fold N in HR.
  destruct (C83_batches V F v0 U le N S cs ws T HS HR HC HW) as (M & HP & _ & H & _). exists S, M. split; [exact HS|]. split; [exact HR|]. split; [exact HP|].
  intros tl HL Hl. destruct (H 1%Z 1 tl ltac:(lia) (le_n 1) HL Hl) as (tags & trees & E & L1 & L2 & HF). exists tags, trees.
  split; [exact L1|]. split; [exact L2|]. split; [exact HF|]. intros nb bs Hn Hb. destruct (H nb bs tl Hn Hb HL Hl) as (tags' & trees' & E' & L1' & L2' & HF').
  rewrite E'. f_equal. clear E E' H HL Hl.
  revert tags trees tags' trees' L1 L2 L1' L2' HF HF'. induction tl as [|t tl IH]; intros tags trees tags' trees' L1 L2 L1' L2' HF HF'.
  - destruct tags, trees, tags', trees'; try discriminate; reflexivity.
  - destruct tags, trees, tags', trees'; try discriminate. cbn [combine] in HF, HF'. inversion_clear HF. inversion_clear HF'. cbn [fst snd] in *.
    destruct (parsed_fun V v0 U M cs ws _ _ _ _ _ H H1) as [-> ->].
    assert (I := IH tags trees tags' trees' ltac:(cbn in *; lia) ltac:(cbn in *; lia) ltac:(cbn in *; lia) ltac:(cbn in *; lia) H0 H2). injection I as -> ->. reflexivity.
Qed.

(** And the whole pipeline, with the networks of the library, its own sentencizer and tokenizer and a language model read from files,
    returns one document for each ordinary text without reserved characters, in order, the one a call with this text alone returns. *)
Theorem C97_every_text : forall (V F State : Type) (v0 : V) (U : udb) (le : F -> F -> bool) (cast : V -> F) f0 feq fmax relu softmax affine
    (w_ptags w_pdeps w_trans : weights F State) cs ws
    (P L : Type) (leP : P -> P -> bool) (leL : L -> L -> bool) zero ninf float_of_str (log : P -> res L) min_counts files m lx nouns,
  (forall l, length (softmax l) = length l) -> udb_ok U -> total_order le -> charset_ok cs -> ws_ok V ws ->
  sized (charset_len cs) 17 w_ptags -> sized (charset_len cs) 25 w_pdeps -> sized (charset_len cs) 4 w_trans ->
  total_order leL -> antisym leL -> (forall x, leL ninf x = true) -> (forall p l, log p = Ok l -> leL l ninf = false) ->
  load_lm U P L leP float_of_str log min_counts files = Ok m -> (forall x, lm_contains P L m x = true -> nonblank U x) ->
  let N := library_networks V F cast f0 feq fmax relu softmax affine State w_ptags w_pdeps w_trans in
  let split := sentencize U (tokenize U) in
  let returns := full_returns V F v0 U le N cs ws P L leL zero ninf m lx nouns split in
  exists S M, rowwise V F (charset_len cs) N S /\ picks le S M /\
  forall texts chunk, (Z.of_nat (length texts) <= 2 ^ 53)%Z -> (forall text, In text texts -> ordinary U text /\ forall c, In c text -> ~ reserved c) ->
  exists sents, Forall2 (fun text s => split text = Ok s) texts sents /\
    ((Z.of_nat (length (concat (map split_tokens sents))) <= 2 ^ 53)%Z ->
     exists docs, Forall2 (document_of V v0 U M cs ws P L leL zero ninf m lx nouns split chunk) texts docs /\
       (forall nb_cores batch_size, (1 <= nb_cores)%Z -> 1 <= batch_size -> forall out, returns nb_cores (Z.of_nat batch_size) texts chunk out <-> out = docs) /\
       (forall i text doc, nth_error texts i = Some text -> nth_error docs i = Some doc ->
          forall nb_cores batch_size, (1 <= nb_cores)%Z -> 1 <= batch_size -> forall out, returns nb_cores (Z.of_nat batch_size) [text] chunk out <-> out = [doc])).
Proof.
  intros V F State v0 U le cast f0 feq fmax relu softmax affine wt wd wr cs ws P L leP leL zero ninf fl lg mc files m lx nouns SM OK T HC HW Zt Zd Zr HT HA H1 H2 H3 NB N split returns.
  destruct (C97_networks V F State cast f0 feq fmax relu softmax affine wt wd wr _ SM Zt Zd Zr) as (S & HS & HR). fold N in HR.
  destruct (C87_every_text V F v0 U le N S cs ws P L leP leL zero ninf fl lg mc files m lx nouns OK T HS HR HC HW HT HA H1 H2 H3 NB) as (M & HP & H).
  exists S, M. split; [exact HR|]. split; [exact HP|exact H].
Qed.

(** The networks of the witness, with integers for numbers: a weighted sum is the bias, the first number and the last one; the LSTM adds up
    the first numbers of what it reads *)
Definition n_sum (x w : list Z) (b : Z) : Z := (b + nth 0 w 0 * hd 0 x + nth 1 w 0 * last x 0)%Z.
Definition n_lstm : lstm Z Z := {| l_start := 0%Z; l_step := fun x s => (hd 0 x + s)%Z; l_out := fun s => [s] |}.
Definition n_units (n : nat) (w : list Z) : list (list Z * Z) := map (fun k => (map (fun x => x * Z.of_nat k)%Z w, (- Z.of_nat k * Z.of_nat k)%Z)) (seq 1 n).
Definition n_weights (out : nat) : weights Z Z := {|
  w_chars := [[0]; [1]; [2]; [3]]%Z; w_convs := repeat (n_units 128 [0; 1]%Z) 4;
  w_tags := repeat [1%Z] 17; w_deps := repeat [1%Z] 25; w_forward := n_lstm; w_backward := n_lstm;
  w_mlp := [([1; 1]%Z, 0%Z)]; w_out := map (fun '(w, b) => (w, b + 9)%Z) (n_units out [1; 0]%Z) |}.
Definition n_net := library_networks nat Z Z.of_nat 0%Z Z.eqb Z.max (Z.max 0) (fun l => l) n_sum Z (n_weights 17) (n_weights 25) (n_weights 4).
Definition n_chars (k : nat) : list (list nat) := repeat (repeat k 22) 52.
Definition n_words : list (list nat) := repeat (repeat 1 100) 52.
Definition n_mask (i : nat) : list bool := repeat false i ++ [true] ++ repeat false (51 - i).
Definition n_classes (r : res (list (list (list Z)))) : list (list nat) := match r with Ok l => map (fun r => firstn 5 (map (picked Z Z.leb) r)) l | Err _ => [] end.
Definition n_cs : charset := [(99%N, 0); (97%N, 1); (98%N, 2)].
Example C97_witness : total_order Z.leb /\ charset_ok n_cs /\ ws_ok nat [] /\
  sized (charset_len n_cs) 17 (n_weights 17) /\ sized (charset_len n_cs) 25 (n_weights 25) /\ sized (charset_len n_cs) 4 (n_weights 4) /\
  char_matrix (charset_len n_cs) (n_chars 3) /\ word_matrix n_words /\ one_true (n_mask 2) /\
  n_classes (net_tags n_net [n_chars 1; n_chars 2; n_chars 3] [n_words; n_words; n_words]) = [[0; 0; 0; 0; 0]; [0; 0; 0; 1; 1]; [0; 1; 2; 3; 4]] /\
  net_trans n_net [repeat 1 52; repeat 1 52] [repeat 1 52; repeat 1 52] [n_chars 2; n_chars 3] [n_words; n_words] [n_mask 1; n_mask 2] [n_mask 3; n_mask 1]
    = Ok [[59; 107; 153; 197]%Z; [116; 221; 324; 425]%Z].
Proof.
  split; [split; intros; destruct (Z.leb_spec a b); try lia; auto; right; apply Z.leb_le; lia|].
  split; [split; [discriminate|]; intros c n [H|[H|[H|[]]]]; injection H as <- <-; cbn; lia|]. split; [intros ? ? []|].
  do 3 (split; [constructor; reflexivity|]).
  split; [split; [reflexivity|]; apply Forall_forall; intros r Hr; apply repeat_spec in Hr; subst r; split; [reflexivity|]; apply Forall_forall; intros x Hx; apply repeat_spec in Hx; subst x; cbn; lia|].
  split; [split; [reflexivity|]; apply Forall_forall; intros r Hr; apply repeat_spec in Hr; subst r; reflexivity|].
  split; [exists 2; split; [lia|reflexivity]|]. split; vm_compute; reflexivity.
Qed.
(** A mask that is true twice would mix the sentences up: with it in the first sentence, and none in the second, the second sentence gets
    probabilities made of a state of the first one, and no error is raised. *)
Theorem C97_two_trues : exists row1 row2 alone,
  net_trans n_net [repeat 1 52; repeat 1 52] [repeat 1 52; repeat 1 52] [n_chars 2; n_chars 3] [n_words; n_words] [repeat true 2 ++ repeat false 50; repeat false 52] [n_mask 3; n_mask 1]
    = Ok [row1; row2] /\
  net_trans n_net [repeat 1 52] [repeat 1 52] [n_chars 3] [n_words] [n_mask 1] [n_mask 1] = Ok [alone] /\ row2 <> alone.
Proof. do 3 eexists. split; [vm_compute; reflexivity|]. split; [vm_compute; reflexivity|]. discriminate. Qed.

Print Assumptions C97_networks.
Print Assumptions C97_words.
Print Assumptions C97_parser.
Print Assumptions C97_every_text.
Print Assumptions C97_witness.
Print Assumptions C97_two_trues.
