(** C93: what an n-gram shows of its text. *)
From Coq Require Import Ascii String.
From Coq Require Import List NArith ZArith QArith Arith Bool Lia.
From Verif Require Import PyBase Regex MTokenizer MUtils MNgram STok LBase LUdb LSentencizer LTokWords LNormal LEnglish12.
Import ListNotations.
Local Open Scope nat_scope.

(** words with one space between *)
Definition one_space (ws : list str) : str := join [32%N] ws.
(** the wildcard of the counts, U+2022 *)
Definition any_word : str := [8226%N].

Section Views.
  Context (U : udb) (OK : udb_ok U) (text : str) (ws : list str) (HW : words_of U text ws).
  Notation n := (new_ngram text).
  Lemma view_tokens : ng_tokens U n = ws.
  Proof. unfold ng_tokens. cbn. apply words_of_fun. exact HW. Qed.
  Lemma view_order : ng_order U n = length ws.
  Proof. unfold ng_order. rewrite view_tokens. reflexivity. Qed.
  Lemma view_last init w : ws = init ++ [w] -> last_token U n = Ok w.
  Proof.
    intros E. unfold last_token. rewrite view_tokens, E. unfold index. rewrite app_length. cbn [length]. change (-1 <? 0)%Z with true. cbv iota. set (L := (length init + 1)).
    destruct (Z.ltb_spec (-1 + Z.of_nat L) 0); [unfold L in *; lia|]. destruct (Z.leb_spec (Z.of_nat L) (-1 + Z.of_nat L)); [lia|]. cbn [orb]. replace (Z.to_nat (-1 + Z.of_nat L)) with (length init) by (unfold L; lia). rewrite nth_error_app2, Nat.sub_diag by lia. reflexivity.
  Qed.
  Lemma view_without init w : ws = init ++ [w] -> init <> [] -> without_last_token U n = Ok (one_space init).
  Proof.
    intros E Hn. unfold without_last_token. rewrite view_order, view_tokens, E, app_length. cbn [length]. destruct init as [|x init]; [congruence|]. destruct (Nat.ltb_spec 1 (length (x :: init) + 1)); [|cbn [length] in *; lia]. rewrite slice_last1. reflexivity.
  Qed.
  Lemma view_short : length ws <= 1 -> without_last_token U n = Err AssertionError.
  Proof. intros H. unfold without_last_token. rewrite view_order. destruct (Nat.ltb_spec 1 (length ws)); [lia|reflexivity]. Qed.
  Lemma view_lower pre suf : ws = pre ++ suf -> pre <> [] -> suf <> [] -> lower_order U n (length suf) = Ok (one_space suf).
  Proof.
    intros E Hp Hs. unfold lower_order. rewrite view_order, view_tokens, E, app_length. destruct pre as [|x pre]; [congruence|]. destruct suf as [|y suf]; [congruence|]. cbn [length]. destruct (Nat.ltb_spec 0 (S (length suf))); [|lia]. destruct (Nat.ltb_spec (S (length suf)) (S (length pre) + S (length suf))); [|lia]. cbn [andb].
    replace (Z.of_nat (S (length pre) + S (length suf)) - Z.of_nat (S (length suf)))%Z with (Z.of_nat (length (x :: pre))) by (cbn [length]; lia). rewrite slice_from. rewrite skipn_app, skipn_all, Nat.sub_diag. reflexivity.
  Qed.
  Lemma view_lower_no k : k = 0 \/ length ws <= k -> lower_order U n k = Err AssertionError.
  Proof. intros H. unfold lower_order. rewrite view_order. destruct (Nat.ltb_spec 0 k); destruct (Nat.ltb_spec k (length ws)); cbn [andb]; try reflexivity. lia. Qed.
End Views.

(** For a text with the words [ws]: its tokens and its order; the last token; the text without the last token, the same with a
    wildcard for it, the same with a wildcard before; the text of a lower order: the last words. Too short texts and orders that
    are not lower are refused. *)
Theorem C93_ngram : forall U, udb_ok U -> forall text ws, words_of U text ws ->
  ng_tokens U (new_ngram text) = ws /\ ng_order U (new_ngram text) = length ws /\
  prepend_wc (new_ngram text) = any_word ++ [32%N] ++ text /\
  (forall init w, ws = init ++ [w] -> last_token U (new_ngram text) = Ok w) /\
  (forall init w, ws = init ++ [w] -> init <> [] ->
     without_last_token U (new_ngram text) = Ok (one_space init) /\
     wc_last_token U (new_ngram text) = Ok (one_space (init ++ [any_word])) /\
     continuous_ngram U (new_ngram text) = Ok (one_space ([any_word] ++ init ++ [any_word]))) /\
  (length ws <= 1 -> without_last_token U (new_ngram text) = Err AssertionError /\ wc_last_token U (new_ngram text) = Err AssertionError /\ continuous_ngram U (new_ngram text) = Err AssertionError) /\
  (forall pre suf, ws = pre ++ suf -> pre <> [] -> suf <> [] -> lower_order U (new_ngram text) (length suf) = Ok (one_space suf)) /\
  (forall k, k = 0 \/ length ws <= k -> lower_order U (new_ngram text) k = Err AssertionError).
Proof.
  intros U OK text ws HW. split; [apply view_tokens; exact HW|]. split; [apply view_order; exact HW|]. split; [reflexivity|]. split; [apply (view_last U text ws HW)|]. split; [|split; [|split; [apply (view_lower U text ws HW)|apply (view_lower_no U text ws HW)]]].
  - intros init w E Hn. pose proof (view_without U text ws HW init w E Hn) as W. assert (J : joinsp [one_space init; WC] = one_space (init ++ [any_word])) by (symmetry; apply join_snoc; exact Hn).
    split; [exact W|]. unfold continuous_ngram, wc_last_token. rewrite W. cbn [rbind]. rewrite J. split; [reflexivity|]. f_equal. symmetry. apply join_cons. destruct init; discriminate.
  - intros H. unfold continuous_ngram, wc_last_token. rewrite (view_short U text ws HW H). auto.
Qed.
Print Assumptions C93_ngram.
(** the wildcard is not a word of the text: the text with a wildcard has one word more *)
Theorem C93_wildcard : forall U, udb_ok U -> forall text ws, words_of U text ws ->
  ng_tokens U (new_ngram (prepend_wc (new_ngram text))) = any_word :: ws.
Proof.
  intros U OK text ws HW. unfold ng_tokens. cbn [ng_text new_ngram]. change (prepend_wc (new_ngram text)) with (any_word ++ [32%N] ++ text). rewrite words_app_r.
  - rewrite split_ws_word; [|discriminate|].
    + cbn [app]. f_equal. rewrite split_ws_cons_space by (rewrite (ok_space U OK) by reflexivity; reflexivity). apply words_of_fun. exact HW.
    + constructor; [|constructor]. apply (ok_symbols_space U OK). cbn. tauto.
  - intros c s E. injection E as <- _. rewrite (ok_space U OK) by reflexivity. reflexivity.
Qed.
Print Assumptions C93_wildcard.
Example C93_witness : words_of ascii_udb (lit "the old house") (map lit ["the"; "old"; "house"]%string) /\
  lower_order ascii_udb (new_ngram (lit "the old house")) 2 = Ok (lit "old house") /\ lower_order ascii_udb (new_ngram (lit "the old house")) 3 = Err AssertionError /\
  continuous_ngram ascii_udb (new_ngram (lit " the  old house")) = Ok ([8226; 32]%N ++ lit "the old" ++ [32; 8226]%N).
Proof.
  split; [|split; [vm_compute; reflexivity|split; vm_compute; reflexivity]]. change (lit "the old house") with (join [32%N] (map lit ["the"; "old"; "house"]%string)). apply words_of_join; [exact ascii_udb_ok|].
  repeat (apply Forall_cons; [split; [discriminate|apply Forall_forall; intros c Hc; cbn in Hc; repeat destruct Hc as [<-|Hc]; try reflexivity; contradiction]|]). apply Forall_nil.
Qed.
Print Assumptions C93_witness.
