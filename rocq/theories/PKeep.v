(** What the sentences of an ordinary text spell (C88, C89). *)
From Coq Require Import Ascii String.
From Coq Require Import List NArith ZArith Arith Bool Lia.
From Verif Require Import PyBase Regex MTokenizer MSentencizer SText STok SKeep LUdb LBase LTok LTokText LTokSent LKeep.
Import ListNotations.
Local Open Scope nat_scope.

(** ** C88 *)
(** the tokens of all sentences, put together in order, are the text without its whitespace, with straight quotation marks and a
    hyphen for a run of dashes; some feet, inches and runs of stars are spelled differently; paragraph marks do not count *)
Theorem C88_spelled : forall U, udb_ok U -> forall text, ordinary U text -> (forall c, In c text -> ~ reserved c) ->
  exists sentences, sentencize U (tokenize U) text = Ok sentences /\ adjusted U (written U text) (unmarked (concat (concat sentences))).
Proof.
  intros U OK text HO HR. destruct (sentencize_ordinary U OK text HO HR) as (sentences & E). exists sentences. split; [exact E|]. exact (sentences_spell U OK text sentences HO HR E).
Qed.
(** the same characters, if no number is followed by a quotation mark and no star by a star *)
Theorem C88_exact : forall U, udb_ok U -> forall text, ordinary U text -> (forall c, In c text -> ~ reserved c) ->
  (forall n, numeral U n -> ~ contains (n ++ lit "'") (written U text) /\ ~ contains (n ++ lit """") (written U text)) -> ~ contains (lit "**") (written U text) ->
  exists sentences, sentencize U (tokenize U) text = Ok sentences /\ unmarked (concat (concat sentences)) = written U text.
Proof.
  intros U OK text HO HR HN HS. destruct (C88_spelled U OK text HO HR) as (sentences & E & A). exists sentences. split; [exact E|]. exact (adj_exact U _ _ A HN HS).
Qed.
Definition c88_text : str := lit "He said ""it is 5' wide."" (Really, ""no joke"" I cannot say) Yes:" ++ [10; 97; 32; 8211; 8212; 32; 8220; 98; 8221]%N.
Example C88_witness : ordinary ascii_udb c88_text /\ (forall c, In c c88_text -> ~ reserved c) /\
  sentencize ascii_udb (tokenize ascii_udb) c88_text = Ok (map (map lit)
    [["He"; "said"; """"; "it"; "is"; "5ft"; "wide"; "."; """"]; ["("; "Really"; ","; """"; "no"; "joke"; """"; "I"; "can"; "not"; "say"; ")"; "Yes"; ":"]; ["a"; "-"; """"; "b"; """"]]%string) /\
  written ascii_udb c88_text = lit "Hesaid""itis5'wide.""(Really,""nojoke""Icannotsay)Yes:a-""b""".
Proof.
  split; [apply ordinaryb_ok; vm_compute; reflexivity|]. split; [|split; vm_compute; reflexivity].
  intros c Hc Hr. assert (G : forallb (fun c => negb (existsb (N.eqb c) [3898; 3899; 10629; 10630]%N)) c88_text = true) by (vm_compute; reflexivity). rewrite forallb_forall in G. specialize (G c Hc). rewrite negb_true_iff in G.
  assert (K : existsb (N.eqb c) [3898; 3899; 10629; 10630]%N = true) by (apply existsb_exists; exists c; split; [exact Hr|apply N.eqb_refl]). congruence.
Qed.
Example C88_exact_witness : exists text, ordinary ascii_udb text /\ (forall c, In c text -> ~ reserved c) /\
  (forall n, numeral ascii_udb n -> ~ contains (n ++ lit "'") (written ascii_udb text) /\ ~ contains (n ++ lit """") (written ascii_udb text)) /\ ~ contains (lit "**") (written ascii_udb text) /\
  sentencize ascii_udb (tokenize ascii_udb) text = Ok (map (map lit) [["I"; "say"; """"; "so"; """"; "today"; "."]; ["("; "He"; """"; "is"; """"; "3.5"; ")"; "*"; "x"; "."]]%string).
Proof.
  exists (lit "I say ""so"" today. (He ""is"" 3.5) *x."). split; [apply ordinaryb_ok; vm_compute; reflexivity|]. split; [|split; [|split; [|vm_compute; reflexivity]]].
  - intros c Hc Hr. cbn in Hc. unfold reserved in Hr. cbn in Hr. repeat (destruct Hc as [<-|Hc]; [intuition discriminate|]). destruct Hc.
  - assert (E : written ascii_udb (lit "I say ""so"" today. (He ""is"" 3.5) *x.") = lit "Isay""so""today.(He""is""3.5)*x.") by (vm_compute; reflexivity). rewrite E. clear E.
    assert (G : forall q n, (q = 39%N \/ q = 34%N) -> numeral ascii_udb n -> ~ contains (n ++ [q]) (lit "Isay""so""today.(He""is""3.5)*x.")).
    { intros q n Hq (c & m & -> & Hc & Hm) Hk. revert Hk. apply (number_quoteb ascii_udb); [vm_compute; reflexivity|]. exists c, m, q. split; [reflexivity|]. split; [exact Hc|]. split; [exact Hm|]. destruct Hq as [-> | ->]; [left|right]; reflexivity. }
    intros n Hn. split; apply G; auto.
  - apply partb_ok. vm_compute. reflexivity.
Qed.

(** ** C89 *)
(** tokens may contain a paragraph mark although the text contains none *)
Theorem C89_refuted : exists text sentences, ordinary ascii_udb text /\ (forall c, In c text -> (c < 128)%N) /\
  sentencize ascii_udb (tokenize ascii_udb) text = Ok sentences /\ In 182%N (concat (concat sentences)).
Proof.
  exists (lit "They left (he said ""no."" twice) early."), [[lit "They"; lit "left"; lit "("; lit "he"; lit "said"; lit """"; lit "no"; lit "."; lit """"; [182%N]; lit "twice"; lit ")"; lit "early"; lit "."]].
  split; [apply ordinaryb_ok; vm_compute; reflexivity|]. split; [|split; [vm_compute; reflexivity|vm_compute; tauto]].
  assert (G : forallb (fun c => (c <? 128)%N) (lit "They left (he said ""no."" twice) early.") = true) by (vm_compute; reflexivity). rewrite forallb_forall in G. intros c Hc. apply N.ltb_lt, G, Hc.
Qed.
(** they do not if no full stop is followed by a quotation mark *)
Theorem C89_partial : forall U, udb_ok U -> forall text sentences, ordinary U text -> (forall c, In c text -> ~ reserved c) -> ~ In 182%N text ->
  ~ contains (lit ".""") text -> sentencize U (tokenize U) text = Ok sentences -> forall sentence token, In sentence sentences -> In token sentence -> ~ In 182%N token.
Proof.
  intros U OK text sentences HO HR HN HQ E s t Hs Ht Hi. apply (sentences_unmarked U OK text sentences HO HR HN HQ E). apply in_concat. exists t. split; [|exact Hi]. apply in_concat. exists s. auto.
Qed.
Example C89_witness : exists text, ordinary ascii_udb text /\ ~ In 182%N text /\ ~ contains (lit ".""") text /\
  sentencize ascii_udb (tokenize ascii_udb) text = Ok (map (map lit) [["They"; "left"; "("; "he"; "said"; """"; "no"; """"; "twice"; ")"; "early"; "."]]%string).
Proof.
  exists (lit "They left (he said ""no"" twice) early."). split; [apply ordinaryb_ok; vm_compute; reflexivity|]. split; [|split; [apply partb_ok; vm_compute; reflexivity|vm_compute; reflexivity]].
  intros Hc. cbn in Hc. repeat (destruct Hc as [E|Hc]; [discriminate E|]). exact Hc.
Qed.
Print Assumptions C88_spelled.
Print Assumptions C88_exact.
Print Assumptions C89_refuted.
Print Assumptions C89_partial.
