(** Properties of the tokenizer, and of the sentencizer with it (C01-C05, C09). *)
From Coq Require Import Ascii String.
From Coq Require Import List NArith ZArith Arith Bool Lia.
From Verif Require Import PyBase Regex MTokenizer MSentencizer SText STok LUdb LBase LTok LTokWords LTokText LTokEdit LTokSent.
Import ListNotations.
Local Open Scope nat_scope.

(** ** C01 *)
(** tokenizing returns a list, whatever the text *)
Theorem C01_terminates : forall U, udb_ok U -> forall text, exists tokens, tokenize U text = Ok tokens.
Proof. exact tokenize_ok. Qed.
Example C01_witness : tok_ascii "see www.a.com, rock 'n' roll :) http://b.org/x.y/z ;-) 'n x" =
  Ok ["see"; "www.a.com,"; "rock"; "'n'"; "roll"; ":)"; "http://b.org/x.y/z"; ";-)"; "'n"; "x"]%string.
Proof. vm_compute. reflexivity. Qed.

(** ** C02 *)
(** no empty token and no whitespace in a token; the empty text is the exception *)
Theorem C02_tokens : forall U text tokens, tokenize U text = Ok tokens -> text <> [] ->
  Forall (fun t => t <> [] /\ forall c, In c t -> u_space U c = false) tokens.
Proof.
  intros U [|c text] tokens H Hn; [congruence|]. unfold tokenize in H. destruct (protect_text U (sanitize U tk_sanitization (c :: text))) as [[prot t]|e]; cbn [rbind] in H; [|discriminate].
  apply ok_inj in H. rewrite <- H. eapply Forall_impl; [|apply split_ws_words]. cbn beta. intros x [Hx Hs]. split; [exact Hx|]. rewrite Forall_forall in Hs. exact Hs.
Qed.
Theorem C02_empty : forall U, tokenize U [] = Ok [[]].
Proof. reflexivity. Qed.
Example C02_witness : tok_ascii "   a  (b>=c)  " = Ok ["a"; "("; "b"; ">="; "c"; ")"]%string /\ tok_ascii " " = Ok [].
Proof. vm_compute. split; reflexivity. Qed.

(** ** C03 *)
(** letters, digits and whitespace: the tokens are the words, cannot being cut in two *)
Theorem C03_words : forall U, udb_ok U -> forall text ws tokens, text <> [] ->
  (forall c, In c text -> alnum c \/ u_space U c = true) -> words_of U text ws ->
  (tokenize U text = Ok tokens <-> plain_tokens ws tokens).
Proof.
  intros U OK text ws tokens Hn Hc Hw. rewrite (tokenize_words U OK text ws Hn Hc Hw). split.
  - intros E. injection E as <-. apply cut_cannot_spec.
  - intros H. f_equal. exact (plain_tokens_fun _ _ _ (cut_cannot_spec ws) H).
Qed.
(** every text has words, and only one list of them; the same for the tokens of words *)
Theorem C03_spec : forall U, (forall text, exists ws, words_of U text ws) /\ (forall text ws ws', words_of U text ws -> words_of U text ws' -> ws = ws') /\
  (forall ws, exists tokens, plain_tokens ws tokens) /\ (forall ws ts ts', plain_tokens ws ts -> plain_tokens ws ts' -> ts = ts').
Proof.
  intros U. split; [exact (words_of_total U)|]. split; [intros text ws ws' H1 H2; rewrite <- (words_of_fun U _ _ H1); exact (words_of_fun U _ _ H2)|].
  split; [intros ws; eexists; apply cut_cannot_spec|exact plain_tokens_fun].
Qed.
Example C03_witness : tok_ascii " I  CANnot see 12 cannots in canNOT" = Ok ["I"; "CAN"; "not"; "see"; "12"; "cannots"; "in"; "can"; "NOT"]%string.
Proof. vm_compute. reflexivity. Qed.

(** ** C04 *)
(** the tokens of an ordinary text, put together, are the text without its whitespace, with straight quotation marks and a
    hyphen for a run of dashes: nothing else is lost, added or moved *)
Theorem C04_content : forall U, udb_ok U -> forall text tokens, text <> [] -> ordinary U text ->
  (forall s, number_quote U s -> ~ contains s text) -> ~ contains (lit "**") (visible U text) ->
  tokenize U text = Ok tokens -> concat tokens = visible U (one_dash (map straight text)).
Proof. intros U OK text tokens. apply content. exact OK. Qed.
(** without the last two conditions: the only changes besides are feet and inches spelled out and stars cut to one *)
Theorem C04_adjusted : forall U, udb_ok U -> forall text tokens, text <> [] -> ordinary U text ->
  tokenize U text = Ok tokens -> adjusted U (visible U (one_dash (map straight text))) (concat tokens).
Proof. intros U OK text tokens. apply content_adjusted. exact OK. Qed.
Definition c04_feet : str := lit "a 5'11"" man, a 3'-6"" ** ***b c***d" ++ [32; 52; 8243]%N.
Example C04_adjusted_witness : ordinary ascii_udb c04_feet /\
  tokenize ascii_udb c04_feet = Ok (map lit ["a"; "5ft11in"; "man"; ","; "a"; "3ft-6"; """"; "**"; "***b"; "c"; "*"; "d"; "4in"]%string).
Proof. split; [apply ordinaryb_ok; vm_compute; reflexivity|]. vm_compute. reflexivity. Qed.
(** the two conditions on numbers and stars are needed: inches are rewritten, and a run of stars becomes one star *)
Theorem C04_conditions :
  (exists text tokens, ordinary ascii_udb text /\ ~ contains (lit "**") (visible ascii_udb text) /\
     tokenize ascii_udb text = Ok tokens /\ concat tokens <> visible ascii_udb (one_dash (map straight text))) /\
  (exists text tokens, ordinary ascii_udb text /\ (forall s, number_quote ascii_udb s -> ~ contains s text) /\
     tokenize ascii_udb text = Ok tokens /\ concat tokens <> visible ascii_udb (one_dash (map straight text))).
Proof.
  split.
  - exists (lit "a 5"" b"), (map lit ["a"; "5in"; "b"]%string). split; [apply ordinaryb_ok; vm_compute; reflexivity|]. split; [apply partb_ok; vm_compute; reflexivity|]. split; [vm_compute; reflexivity|vm_compute; discriminate].
  - exists (lit "a**b"), (map lit ["a"; "*"; "b"]%string). split; [apply ordinaryb_ok; vm_compute; reflexivity|]. split; [apply number_quoteb; vm_compute; reflexivity|]. split; [vm_compute; reflexivity|vm_compute; discriminate].
Qed.
Definition c04_text : str := lit "I cannot say >=3 (a'b), ""so"" he's 4.5 o'clock; e.g. a*b:" ++ [8220; 97; 8211; 8212; 98; 8217; 115; 8221]%N.
Example C04_witness : ordinary ascii_udb c04_text /\ (forall s, number_quote ascii_udb s -> ~ contains s c04_text) /\ ~ contains (lit "**") (visible ascii_udb c04_text) /\
  tokenize ascii_udb c04_text = Ok (map lit ["I"; "can"; "not"; "say"; ">="; "3"; "("; "a'b"; ")"; ","; """"; "so"; """"; "he"; "'s"; "4.5"; "o'clock"; ";"; "e.g."; "a"; "*"; "b"; ":"; """"; "a"; "-"; "b"; "'s"; """"]%string).
Proof.
  split; [apply ordinaryb_ok; vm_compute; reflexivity|]. split; [apply number_quoteb; vm_compute; reflexivity|]. split; [apply partb_ok; vm_compute; reflexivity|]. vm_compute. reflexivity.
Qed.

(** ** C05 *)
Definition placeholder : str := lit "_PROTECTED_".
(** a placeholder leaks when a URL follows the abbreviation of and *)
Theorem C05_refuted : exists text tokens token, ~ contains placeholder text /\ tokenize ascii_udb text = Ok tokens /\ In token tokens /\ contains placeholder token.
Proof.
  exists (lit "rock 'n' a.com/x"), [lit "rock_PROTECTED_1_a.com/x"], (lit "rock_PROTECTED_1_a.com/x"). split.
  - intros (x & y & E). assert (H : In 95%N (lit "rock 'n' a.com/x")) by (rewrite E, !in_app_iff; right; left; left; reflexivity). cbn in H. repeat (destruct H as [H|H]; [discriminate H|]). destruct H.
  - split; [vm_compute; reflexivity|]. split; [left; reflexivity|]. exists (lit "rock"), (lit "1_a.com/x"). reflexivity.
Qed.

(** no placeholder, and no part of one, in the tokens of an ordinary text *)
Theorem C05_partial : forall U, udb_ok U -> forall text tokens token, ordinary U text -> tokenize U text = Ok tokens -> In token tokens -> ~ In 95%N token.
Proof. intros U OK text tokens token. apply no_underscore. exact OK. Qed.
(** the shielded parts of this text are put back *)
Example C05_witness : ordinary ascii_udb (lit "rock 'n' roll ;) >= 3.5 <= x") /\ tok_ascii "rock 'n' roll ;) >= 3.5 <= x" = Ok ["rock"; "'n'"; "roll"; ";)"; ">="; "3.5"; "<="; "x"]%string.
Proof. split; [apply ordinaryb_ok|]; vm_compute; reflexivity. Qed.

(** ** C09 *)
(** a text with a reserved character, and a text without any, that raise *)
Theorem C09_refuted : exists text1 text2, sentencize ascii_udb (tokenize ascii_udb) text1 = Err ValueError /\
  (forall c, In c text2 -> ~ reserved c) /\ sentencize ascii_udb (tokenize ascii_udb) text2 = Err ValueError.
Proof.
  exists [3898%N], (lit """a"" 'n' b.c/d"). split; [vm_compute; reflexivity|]. split; [|vm_compute; reflexivity].
  intros c Hc Hr. cbn in Hc, Hr. repeat (destruct Hr as [<-|Hr]; [repeat (destruct Hc as [Hc|Hc]; [discriminate Hc|]); destruct Hc|]). destruct Hr.
Qed.

(** an ordinary text without reserved characters never raises *)
Theorem C09_partial : forall U, udb_ok U -> forall text, ordinary U text -> (forall c, In c text -> ~ reserved c) ->
  exists sentences, sentencize U (tokenize U) text = Ok sentences.
Proof. exact sentencize_ordinary. Qed.
Example C09_witness : ordinary ascii_udb (lit "He said ""no."" (a ""b"" c) x 'n' y? ok") /\ (forall c, In c (lit "He said ""no."" (a ""b"" c) x 'n' y? ok") -> ~ reserved c) /\
  sentencize ascii_udb (tokenize ascii_udb) (lit "He said ""no."" (a ""b"" c) x 'n' y? ok") =
  Ok [map lit ["He"; "said"; """"; "no"; "."; """"]; map lit ["("; "a"; """"; "b"; """"; "c"; ")"; "x"; "'n'"; "y"; "?"]; map lit ["ok"]]%string.
Proof.
  split; [apply ordinaryb_ok; vm_compute; reflexivity|]. split; [|vm_compute; reflexivity].
  assert (F : forallb (fun c => (c <? 3000)%N) (lit "He said ""no."" (a ""b"" c) x 'n' y? ok") = true) by (vm_compute; reflexivity).
  intros c Hc. rewrite forallb_forall in F. specialize (F c Hc). apply N.ltb_lt in F. intros Hr. cbn in Hr. destruct Hr as [<-|[<-|[<-|[<-|[]]]]]; lia.
Qed.

Print Assumptions C01_terminates.
Print Assumptions C02_tokens.
Print Assumptions C02_empty.
Print Assumptions C03_words.
Print Assumptions C03_spec.
Print Assumptions C04_content.
Print Assumptions C04_adjusted.
Print Assumptions C04_conditions.
Print Assumptions C05_refuted.
Print Assumptions C05_partial.
Print Assumptions C09_refuted.
Print Assumptions C09_partial.
