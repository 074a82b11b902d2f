(** C06, C07, C08 and C10: sanitization and sentences. Each theorem is followed by a case that meets its hypotheses. *)
From Coq Require Import Ascii String.
From Coq Require Import List NArith ZArith Arith Bool Lia.
From Verif Require Import PyBase Regex MTokenizer MSentencizer SText LBase LUdb LRegex LSub LSentencizer LRestore.
Import ListNotations.
Local Open Scope nat_scope.

(** ** C06 *)
Theorem C06_normal_form : forall U, udb_ok U -> forall rules text, normal_form U (sanitize U rules text).
Proof. intros U OK rules text. destruct (sanitize_words U rules text) as (ws & H & ->). apply joined_normal; assumption. Qed.
Theorem C06_no_rule : forall U, udb_ok U -> forall text,
  sanitize U [] (sanitize U [] text) = sanitize U [] text /\ split_ws (u_space U) (sanitize U [] text) = split_ws (u_space U) text.
Proof.
  intros U OK text. assert (W : split_ws (u_space U) (sanitize U [] text) = split_ws (u_space U) text) by (rewrite sanitize_none; apply words_join; [exact OK|apply words_are_words]).
  split; [|exact W]. rewrite (sanitize_none U (sanitize U [] text)), W. symmetry. apply sanitize_none.
Qed.
Example C06_witness : sanitize ascii_udb tk_sanitization ([9; 32; 8220]%N ++ lit "a  b" ++ [8212; 8212; 10; 32]%N) = [34%N] ++ lit "a b -".
Proof. vm_compute. reflexivity. Qed.

(** ** C07 *)
(** whatever the tokens *)
Theorem C07_split_sentences : forall U tokens,
  sentences tokens (split_sentences U tokens) /\ concat (split_sentences U tokens) = filter (fun t => negb (str_eqb t paragraph)) tokens.
Proof. intros U tokens. assert (H : sentences tokens (split_sentences U tokens)) by (apply (split_loop_spec U tokens []); constructor). split; [exact H|]. apply sentences_tokens. exact H. Qed.
(** the specification determines the sentences and the blocks *)
Theorem C07_sentences_unique : forall tokens ss ss', sentences tokens ss -> sentences tokens ss' -> ss = ss'.
Proof. exact sentences_fun. Qed.
Theorem C07_blocks_unique : forall U text bs bs', split_blocks U text bs -> split_blocks U text bs' -> bs = bs'.
Proof. exact split_blocks_fun. Qed.
(** a text without quotation mark (34) or opening bracket (40), with any tokenizer that returns, for each block, tokens that
    do not start with one of the four reserved characters *)
Theorem C07_text : forall U, udb_ok U -> forall (tokenizer : str -> res (list str)) text,
  (forall c, In c text -> c <> 34%N /\ c <> 40%N) ->
  exists blocks, split_blocks U text blocks /\
  forall tokens, Forall2 (fun b ts => tokenizer (join [space] (split_ws (u_space U) b)) = Ok ts /\
                                      Forall (fun t => forall c t', t = c :: t' -> ~ reserved c) ts) blocks tokens ->
  exists ss, Forall2 sentences tokens ss /\ sentencize U tokenizer text = Ok (concat ss).
Proof.
  intros U OK tk text H. exists (re_split U false re_newline text). pose proof (split_newlines U OK text) as SB. split; [exact SB|]. intros tokens F. eapply sentencize_plain; eauto.
Qed.
Definition c07_text : str := lit "He came. Why? Because: it rains" ++ [9; 10; 32]%N ++ lit "and snows ... too".
Example C07_witness :
  split_blocks ascii_udb c07_text [lit "He came. Why? Because: it rains"; lit "and snows ... too"] /\
  sentencize ascii_udb (tokenize ascii_udb) c07_text =
    Ok [[lit "He"; lit "came"; lit "."]; [lit "Why"; lit "?"]; [lit "Because"; lit ":"]; [lit "it"; lit "rains"]; [lit "and"; lit "snows"; lit "..."]; [lit "too"]].
Proof.
  split; [|vm_compute; reflexivity]. assert (E : re_split ascii_udb false re_newline c07_text = [lit "He came. Why? Because: it rains"; lit "and snows ... too"]) by (vm_compute; reflexivity).
  rewrite <- E. apply split_newlines. apply ascii_udb_ok.
Qed.

(** ** C08 *)
(** a block contains no end of line (10) *)
Theorem C08_quotes : forall U text recorded, ~ In 10%N text -> exists ps tl, parts_of 34%N 34%N text ps tl /\
  find_blocks U re_quote quote_start quote_end text recorded =
    (collapse U false (marked quote_start quote_end (length recorded) ps tl), recorded ++ map snd ps).
Proof. intros U text recorded H. exact (find_blocks_spec U 34%N 34%N quote_start quote_end text recorded H). Qed.
Theorem C08_brackets : forall U text recorded, ~ In 10%N text -> exists ps tl, parts_of 40%N 41%N text ps tl /\
  find_blocks U re_bracket bracket_start bracket_end text recorded =
    (collapse U false (marked bracket_start bracket_end (length recorded) ps tl), recorded ++ map snd ps).
Proof. intros U text recorded H. exact (find_blocks_spec U 40%N 41%N bracket_start bracket_end text recorded H). Qed.
(** the parts of a text are determined *)
Theorem C08_parts_unique : forall (o c : char) text ps tl ps' tl', parts_of o c text ps tl -> parts_of o c text ps' tl' -> ps = ps' /\ tl = tl'.
Proof. intros o c. exact (parts_fun o c). Qed.
Example C08_witness : find_blocks ascii_udb re_bracket bracket_start bracket_end (lit "a (b c)d () (e) (f") (repeat (lit "x") 9) =
  (lit "a " ++ [bracket_start] ++ lit "9" ++ [bracket_end] ++ lit " d " ++ [bracket_start] ++ lit "10" ++ [bracket_end] ++ lit " " ++ [bracket_start] ++ lit "11" ++ [bracket_end] ++ lit " (f",
   repeat (lit "x") 9 ++ [lit "b c"; []; lit "e"]).
Proof. vm_compute. reflexivity. Qed.

(** ** C10 *)
(** with the tokenizer that splits on whitespace, for every text without reserved character *)
Theorem C10_restored : forall U, udb_ok U -> forall text, (forall c, In c text -> ~ reserved c) ->
  exists blocks ss, split_blocks U text blocks /\ Forall2 (block_sentences U) blocks ss /\
    sentencize U (fun s => Ok (split_ws (u_space U) s)) text = Ok (concat ss).
Proof. intros U OK text H. apply sentencize_restored; assumption. Qed.
(** the specification determines the sentences of a block *)
Theorem C10_unique : forall U block ss ss', block_sentences U block ss -> block_sentences U block ss' -> ss = ss'.
Proof. exact block_sentences_fun. Qed.
Definition c10_text : str := lit "He said ""a . b"" and ( ""c . d"" e . f ) . Then (g "" h) i" ++ [10%N] ++ lit """ j""".
Example C10_witness : sentencize ascii_udb (fun s => Ok (split_ws (u_space ascii_udb) s)) c10_text =
  Ok [[lit "He"; lit "said"; lit """"; lit "a"; lit "."; lit "b"; lit """"; lit "and"; lit "("; lit """"; lit "c"; lit "."; lit "d"; lit """"; lit "e"; lit "."; lit "f"; lit ")"; lit "."];
      [lit "Then"; lit "("; lit "g"; lit """"; lit "h"; lit ")"; lit "i"]; [lit """"; lit "j"; lit """"]].
Proof. vm_compute. reflexivity. Qed.

Print Assumptions C06_normal_form.
Print Assumptions C06_no_rule.
Print Assumptions C07_split_sentences.
Print Assumptions C07_text.
Print Assumptions C08_quotes.
Print Assumptions C08_brackets.
Print Assumptions C10_restored.
