(** C91 and C92: the tokens and the sentences of ordinary English text. *)
From Coq Require Import Ascii String.
From Coq Require Import List NArith Arith Bool.
From Verif Require Import PyBase Regex MTokenizer MSentencizer SText STok LBase LUdb LTok LSentencizer LEnglish11 LEnglish12 SEnglish.
Import ListNotations.
Local Open Scope nat_scope.

(** A text is made of words of ASCII letters, of numbers (7, 1,000, 3.14), of words with a contracted
    word (I'm, Smith's, don't) and of words joined with hyphens (well-known), each with at most one of the marks , ; : ! ? . after it,
    and of web addresses (http://www.example.com/a?b=1), each with at most a full stop after it and none a part of another one, with any white space
    between them. Its tokens are: every word, with or without hyphens, every number, every address; the two parts of cannot; the word and the
    contracted word; each mark by itself, but for a full stop after an initial, or before a word that
    does not start with a capital, or after one of the known abbreviations: that one stays with its word. *)
Theorem C91_english_tokens : forall U, udb_ok U -> forall text ws, ws <> [] -> english ws -> apart ws -> words_of U text (map written ws) ->
  tokenize U text = Ok (english_tokens ws).
Proof. exact tokenize_english. Qed.
Print Assumptions C91_english_tokens.

(** What the statement says of one text: the words, and then the tokens. *)
Definition plain (s : string) := EWord (Plain (lit s)) None.
Definition sample : list eword :=
  [plain "I"; plain "cannot"; plain "sing"; EWord (Plain (lit "Mr")) (Some 46%N); EWord (Short (lit "Smith") (lit "'s")) None; EWord (Plain (lit "song")) (Some 46%N);
   EWord (Plain (lit "J")) (Some 46%N); EWord (Hyph [lit "Ex"] (lit "Dr")) (Some 46%N); EWord (Plain (lit "Bach")) (Some 44%N); plain "he"; EWord (Short (lit "did") (lit "N'T")) (Some 59%N); plain "has"; EWord (Hyph [lit "mother"; lit "in"] (lit "law")) None; EWord (Num (lit "1,000.50")) None; EWord (Plain (lit "No")) (Some 46%N); EWord (Num (lit "7")) None; EWord (Plain (lit "Jargon")) (Some 33%N);
   plain "See"; EWord (Web (lit "http://www.Example.com/a?b=1")) (Some 46%N); plain "Then"; EWord (Web (lit "HTTPS://x.org/~me/x_y")) None; plain "now"; EWord (Web (lit "WWW.b.c")) (Some 46%N); plain "and"; EWord (Web (lit "HTTPS://x.org/~me/x_y")) (Some 46%N)].
(** an address, from its parts *)
Fixpoint find_inside (x s : str) : bool := startswith s x || match s with [] => false | _ :: s' => find_inside x s' end.
Lemma inside_find x s : inside x s -> find_inside x s = true.
Proof.
  intros (a & b & ->). induction a as [|c a IH]; cbn [app].
  - assert (S : startswith (x ++ b) x = true) by (unfold startswith; rewrite (proj2 (strip_prefix_some x (x ++ b) b) eq_refl); reflexivity). destruct (x ++ b); cbn [find_inside]; rewrite S; reflexivity.
  - cbn [find_inside]. rewrite IH. apply orb_true_r.
Qed.
Lemma web_parts h p ps : In (map uncapital (lit h)) (map lit ["http://"; "https://"; "www."]%string) -> forallb (fun q => negb (str_eqb q []) && forallb web_char q) (map lit (p :: ps)) = true -> ps <> [] ->
  forall u, lit u = lit h ++ lit p ++ flat_map (fun q => 46%N :: q) (map lit ps) -> find_inside (lit "_PROTECTED_") (lit u) = false -> core_ok (Web (lit u)).
Proof.
  intros Hh Hp Hn u E Hi. assert (P : forall q, In q (map lit (p :: ps)) -> web_part q). { intros q Hq. rewrite forallb_forall in Hp. specialize (Hp q Hq). apply andb_true_iff in Hp. destruct Hp as [H1 H2]. split; [intros ->; discriminate H1|]. apply Forall_forall. apply forallb_forall. exact H2. }
  split; [|intros F; apply inside_find in F; congruence]. exists (lit h), (lit p), (map lit ps). split; [exact Hh|]. split; [apply P; left; reflexivity|]. split; [intros F; destruct ps; [congruence|discriminate F]|]. split; [|exact E]. apply Forall_forall. intros q Hq. apply P. right. exact Hq.
Qed.
Lemma sample_english : english sample.
Proof.
  assert (L : forall s, lit s <> [] -> forallb a_letter (lit s) = true -> letters (lit s)) by (intros s H1 H2; split; [exact H1|apply Forall_forall; apply forallb_forall; exact H2]).
  assert (D : forall s, lit s <> [] -> forallb a_digit (lit s) = true -> digits (lit s)) by (intros s H1 H2; split; [exact H1|apply Forall_forall; apply forallb_forall; exact H2]).
  unfold sample, plain. repeat match goal with
  | |- english [] => apply english_nil
  | |- english (EWord _ None :: _) => apply english_word
  | |- english (EWord _ (Some 46%N) :: _) => apply english_stop; [|split|]
  | |- english (EWord _ (Some _) :: _) => apply english_mark; [|discriminate| |]
  | |- core_ok (Plain _) => apply L; [discriminate|reflexivity]
  | |- core_ok (Hyph _ _) => split; [discriminate|split; [repeat (constructor; [split; [apply L; [discriminate|reflexivity]|discriminate]|]); constructor|split; [apply L; [discriminate|reflexivity]|discriminate]]]
  | |- core_ok (Num (lit "7")) => apply number_int, D; [discriminate|reflexivity]
  | |- core_ok (Web (lit "http://www.Example.com/a?b=1")) => apply (web_parts "http://" "www" ["Example"; "com/a?b=1"]%string); [left; reflexivity|reflexivity|discriminate|reflexivity|reflexivity]
  | |- core_ok (Web (lit "HTTPS://x.org/~me/x_y")) => apply (web_parts "HTTPS://" "x" ["org/~me/x_y"]%string); [right; left; reflexivity|reflexivity|discriminate|reflexivity|reflexivity]
  | |- core_ok (Web (lit "WWW.b.c")) => apply (web_parts "WWW." "b" ["c"]%string); [right; right; left; reflexivity|reflexivity|discriminate|reflexivity|reflexivity]
  | |- In _ _ => cbn; tauto
  end; try exact I; try discriminate.
  - split; [apply L; [discriminate|reflexivity]|]. split; [discriminate|]. cbn. tauto.
  - split; [apply L; [discriminate|reflexivity]|]. split; [discriminate|]. cbn. tauto.
  - apply (number_sep (lit "1") 44%N (lit "000.50")); [apply D; [discriminate|reflexivity]|auto|]. apply (number_sep (lit "000") 46%N (lit "50")); [apply D; [discriminate|reflexivity]|auto|]. apply number_int, D; [discriminate|reflexivity].
Qed.
Lemma sample_apart : apart sample.
Proof.
  intros u v Hu Hv Hi. apply inside_find in Hi. unfold sample, plain, addresses in Hu, Hv. cbn [flat_map e_core app In] in Hu, Hv.
  repeat destruct Hu as [<-|Hu]; try contradiction; repeat destruct Hv as [<-|Hv]; try contradiction; first [reflexivity|exfalso; vm_compute in Hi; discriminate Hi].
Qed.
Definition sample_text : str := lit "I cannot sing Mr. Smith's song. J. Ex-Dr. Bach, he didN'T; has mother-in-law 1,000.50 No. 7 Jargon! See http://www.Example.com/a?b=1. Then HTTPS://x.org/~me/x_y now WWW.b.c. and HTTPS://x.org/~me/x_y.".
Example C91_witness : sample <> [] /\ english sample /\ apart sample /\ words_of ascii_udb sample_text (map written sample) /\
  map show (english_tokens sample) = ["I"; "can"; "not"; "sing"; "Mr."; "Smith"; "'s"; "song"; "."; "J."; "Ex-Dr."; "Bach"; ","; "he"; "did"; "N'T"; ";"; "has"; "mother-in-law"; "1,000.50"; "No."; "7"; "Jargon"; "!"; "See"; "http://www.Example.com/a?b=1"; "."; "Then"; "HTTPS://x.org/~me/x_y"; "now"; "WWW.b.c."; "and"; "HTTPS://x.org/~me/x_y"; "."]%string /\
  tok_ascii "I cannot sing Mr. Smith's song. J. Ex-Dr. Bach, he didN'T; has mother-in-law 1,000.50 No. 7 Jargon! See http://www.Example.com/a?b=1. Then HTTPS://x.org/~me/x_y now WWW.b.c. and HTTPS://x.org/~me/x_y." = Ok ["I"; "can"; "not"; "sing"; "Mr."; "Smith"; "'s"; "song"; "."; "J."; "Ex-Dr."; "Bach"; ","; "he"; "did"; "N'T"; ";"; "has"; "mother-in-law"; "1,000.50"; "No."; "7"; "Jargon"; "!"; "See"; "http://www.Example.com/a?b=1"; "."; "Then"; "HTTPS://x.org/~me/x_y"; "now"; "WWW.b.c."; "and"; "HTTPS://x.org/~me/x_y"; "."]%string.
Proof.
  split; [discriminate|]. split; [exact sample_english|]. split; [exact sample_apart|]. split.
  - change sample_text with (join [32%N] (map written sample)). apply words_of_join; [exact ascii_udb_ok|]. repeat (apply Forall_cons; [split; [discriminate|apply Forall_forall; intros c Hc; cbn in Hc; repeat destruct Hc as [<-|Hc]; try reflexivity; contradiction]|]). apply Forall_nil.
  - split; vm_compute; reflexivity.
Qed.
Print Assumptions C91_witness.
(** The texts the statement leaves out are tokenized in other ways. *)
Example C91_left_out :
  tok_ascii "It is 3.14. He ran." = Ok ["It"; "is"; "3.14."; "He"; "ran"; "."]%string /\
  tok_ascii "He is Smith's. so" = Ok ["He"; "is"; "Smith"; "'"; "s."; "so"]%string /\
  tok_ascii "well-cannot - not-" = Ok ["well-can"; "not"; "-"; "not-"]%string /\
  tok_ascii "It was 5. 7. and" = Ok ["It"; "was"; "5"; "."; "7."; "and"]%string /\
  tok_ascii "On http://a.com, he" = Ok ["On"; "http://a.com,"; "he"]%string /\
  tok_ascii "http://a.com http://a.com?b=c" = Ok ["http://a.com"; "http://a.com"; "?"; "b"; "="; "c"]%string.
Proof. vm_compute. repeat split. Qed.

(** ** C92 *)
(** A text of several lines, each one as in C91 or empty: the sentences of each line, one after the other. A sentence ends
    after each word with ! or ? or a colon, or with a full stop that does not belong to the word; and at the end of the line. *)
Theorem C92_english_sentences : forall U, udb_ok U -> forall text lines wss, split_blocks U text lines ->
  Forall2 (fun line ws => english ws /\ apart ws /\ words_of U line (map written ws)) lines wss ->
  sentencize U (tokenize U) text = Ok (concat (map line_sentences wss)).
Proof. exact sentencize_english. Qed.
Print Assumptions C92_english_sentences.
Definition sample2 : list eword := [plain "Is"; EWord (Plain (lit "it")) (Some 58%N); EWord (Plain (lit "Mr")) (Some 46%N); EWord (Plain (lit "Smith")) (Some 63%N); plain "No"].
Definition sample2_text : str := sample_text ++ [32; 10; 13]%N ++ lit "Is  it: Mr. Smith? No" ++ [10%N].
Example C92_witness : split_blocks ascii_udb sample2_text [sample_text; lit "Is  it: Mr. Smith? No"; []] /\
  Forall2 (fun line ws => english ws /\ apart ws /\ words_of ascii_udb line (map written ws)) [sample_text; lit "Is  it: Mr. Smith? No"; []] [sample; sample2; []] /\
  map (map show) (concat (map line_sentences [sample; sample2; []])) =
    [["I"; "can"; "not"; "sing"; "Mr."; "Smith"; "'s"; "song"; "."]; ["J."; "Ex-Dr."; "Bach"; ","; "he"; "did"; "N'T"; ";"; "has"; "mother-in-law"; "1,000.50"; "No."; "7"; "Jargon"; "!"]; ["See"; "http://www.Example.com/a?b=1"; "."]; ["Then"; "HTTPS://x.org/~me/x_y"; "now"; "WWW.b.c."; "and"; "HTTPS://x.org/~me/x_y"; "."]; ["Is"; "it"; ":"]; ["Mr."; "Smith"; "?"]; ["No"]; [""]]%string.
Proof.
  split; [|split].
  - assert (E : re_split ascii_udb false re_newline sample2_text = [sample_text; lit "Is  it: Mr. Smith? No"; []]) by (vm_compute; reflexivity). rewrite <- E. apply split_newlines. apply ascii_udb_ok.
  - constructor; [split; [exact sample_english|split; [exact sample_apart|apply C91_witness]]|]. constructor; [|constructor; [split; [constructor|split; [intros u v []|constructor; intros c []]]|constructor]]. split; [|split; [intros u v []|]].
    + assert (L : forall s, lit s <> [] -> forallb a_letter (lit s) = true -> letters (lit s)) by (intros s H1 H2; split; [exact H1|apply Forall_forall; apply forallb_forall; exact H2]).
      apply english_word; [apply L; [discriminate|reflexivity]|]. apply english_mark; [apply L; [discriminate|reflexivity]|discriminate|cbn; tauto|]. apply english_stop; [apply L; [discriminate|reflexivity]|split; exact I|]. apply english_mark; [apply L; [discriminate|reflexivity]|discriminate|cbn; auto|]. apply english_word; [apply L; [discriminate|reflexivity]|]. apply english_nil.
    + assert (N : forall s c, forallb (fun c => negb (u_space ascii_udb c)) (lit s) = true -> In c (lit s) -> u_space ascii_udb c = false) by (intros s c H Hc; rewrite forallb_forall in H; apply negb_true_iff; auto).
      assert (B : forall n rest c rest', repeat 32%N (S n) ++ rest = c :: rest' -> u_space ascii_udb c = true) by (intros n rest c rest' E; injection E as <- _; reflexivity).
      assert (R : forall n c, In c (repeat 32%N n) -> u_space ascii_udb c = true) by (intros n c Hc; apply repeat_spec in Hc; subst c; reflexivity).
      apply (words_next _ [] (lit "Is") (repeat 32%N 2 ++ lit "it: Mr. Smith? No")); [intros c []|discriminate|intros c; apply (N "Is"%string); reflexivity|apply (B 1)|].
      apply (words_next _ (repeat 32%N 2) (lit "it:") (repeat 32%N 1 ++ lit "Mr. Smith? No")); [apply R|discriminate|intros c; apply (N "it:"%string); reflexivity|apply (B 0)|].
      apply (words_next _ (repeat 32%N 1) (lit "Mr.") (repeat 32%N 1 ++ lit "Smith? No")); [apply R|discriminate|intros c; apply (N "Mr."%string); reflexivity|apply (B 0)|].
      apply (words_next _ (repeat 32%N 1) (lit "Smith?") (repeat 32%N 1 ++ lit "No")); [apply R|discriminate|intros c; apply (N "Smith?"%string); reflexivity|apply (B 0)|].
      apply (words_next _ (repeat 32%N 1) (lit "No") []); [apply R|discriminate|intros c; apply (N "No"%string); reflexivity|discriminate|]. constructor. intros c [].
  - vm_compute. reflexivity.
Qed.
Print Assumptions C92_witness.

(** ** C98 *)
(** Is every web address of an English text a token, with or without the full stop after it? Not when it
    has another address of the text as a part: the shorter one is protected first, everywhere. *)
Theorem C98_addresses_refuted : exists text ws u tokens, english ws /\ words_of ascii_udb text (map written ws) /\ In u (addresses ws) /\
  tokenize ascii_udb text = Ok tokens /\ ~ In u tokens /\ ~ In (u ++ [46%N]) tokens.
Proof.
  exists (lit "See http://a.com and http://a.com?b=c now"), [plain "See"; EWord (Web (lit "http://a.com")) None; plain "and"; EWord (Web (lit "http://a.com?b=c")) None; plain "now"], (lit "http://a.com?b=c"), (map lit ["See"; "http://a.com"; "and"; "http://a.com"; "?"; "b"; "="; "c"; "now"]%string).
  assert (L : forall s, lit s <> [] -> forallb a_letter (lit s) = true -> letters (lit s)) by (intros s H1 H2; split; [exact H1|apply Forall_forall; apply forallb_forall; exact H2]).
  split; [|split; [|split; [|split; [vm_compute; reflexivity|]]]].
  - unfold plain. repeat (apply english_word; [first [apply (web_parts "http://" "a" ["com"]%string); [left; reflexivity|reflexivity|discriminate|reflexivity|reflexivity]|apply (web_parts "http://" "a" ["com?b=c"]%string); [left; reflexivity|reflexivity|discriminate|reflexivity|reflexivity]|apply L; [discriminate|reflexivity]]|]). apply english_nil.
  - match goal with |- words_of _ _ ?l => change (words_of ascii_udb (join [32%N] l) l) end. apply words_of_join; [exact ascii_udb_ok|]. repeat (apply Forall_cons; [split; [discriminate|apply Forall_forall; intros c Hc; cbn in Hc; repeat destruct Hc as [<-|Hc]; try reflexivity; contradiction]|]). apply Forall_nil.
  - right. left. reflexivity.
  - split; intros H; cbn [map In] in H; repeat destruct H as [H|H]; try discriminate H; contradiction.
Qed.
Print Assumptions C98_addresses_refuted.
(** Missing: the addresses with another address of the text as a part. *)
Theorem C98_addresses_partial : forall U, udb_ok U -> forall text ws u, english ws -> apart ws -> words_of U text (map written ws) -> In u (addresses ws) ->
  exists tokens, tokenize U text = Ok tokens /\ (In u tokens \/ In (u ++ [46%N]) tokens).
Proof.
  intros U OK text ws u He Hap Hw Hu. exists (english_tokens ws). split; [apply C91_english_tokens; try assumption; intros ->; destruct Hu|]. clear Hap Hw.
  induction He as [|c ws Hc He IH|c m ws Hc Hn Hm He IH|c ws Hc Hs He IH]; cbn [addresses flat_map e_core] in Hu; [destruct Hu| | |]; cbn [english_tokens]; rewrite !in_app_iff; apply in_app_iff in Hu; destruct Hu as [Hu|Hu]; try (specialize (IH Hu); tauto); destruct c as [p|n|p c|q p|v]; try contradiction; destruct Hu as [<-|[]].
  - left. left. left. reflexivity.
  - destruct (Hn _ eq_refl).
  - unfold word_tokens. cbn [e_mark e_core]. destruct (_ && _); [right; left; left; reflexivity|left; left; left; reflexivity].
Qed.
Print Assumptions C98_addresses_partial.
Example C98_witness : english sample /\ apart sample /\ words_of ascii_udb sample_text (map written sample) /\ In (lit "WWW.b.c") (addresses sample) /\ length (addresses sample) = 4.
Proof. split; [exact sample_english|]. split; [exact sample_apart|]. split; [apply C91_witness|]. split; [cbn; tauto|reflexivity]. Qed.
Print Assumptions C98_witness.
