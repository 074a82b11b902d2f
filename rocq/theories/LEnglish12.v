(** Proofs about the sentences of ordinary English text. *)
From Coq Require Import Ascii String.
From Coq Require Import List NArith ZArith Arith Bool Lia.
From Verif Require Import PyBase Regex MTokenizer MSentencizer SText STok SEnglish LBase LText LUdb LRestore LRegex LSub LSentencizer LTok LTokWords LAscii LRun LEnglish LEnglish2 LEnglish3 LEnglish4 LEnglish5 LEnglish6 LEnglish7 LEnglish8 LEnglish9 LEnglish10 LEnglish11.
Import ListNotations.
Local Open Scope nat_scope.

Definition plainc (c : char) : bool := (c <? 128)%N && negb (existsb (N.eqb c) (lit ".?!:")).
Lemma inner_char t c : In c t -> plainc c = true -> inner t.
Proof.
  intros Hc Hp. unfold plainc in Hp. apply andb_true_iff in Hp. destruct Hp as [H1 H2]. apply N.ltb_lt in H1. apply negb_true_iff in H2. split.
  - intros [_ F]. rewrite Forall_forall in F. specialize (F c Hc). assert (existsb (N.eqb c) (lit ".?!:") = true) by (apply existsb_exists; exists c; split; [exact F|apply N.eqb_refl]). congruence.
  - intros ->. destruct Hc as [<-|[]]. discriminate H1.
Qed.
Lemma an_plain c : an c = true -> plainc c = true.
Proof.
  intros H. unfold plainc. apply andb_true_iff. split.
  - apply N.ltb_lt. apply an_lt. exact H.
  - apply negb_true_iff. apply not_true_is_false. intros F. apply existsb_exists in F. destruct F as (d & Hd & E). apply N.eqb_eq in E. subst d. cbn in Hd. repeat destruct Hd as [<-|Hd]; try discriminate H. contradiction.
Qed.
Lemma letters_inner p : p <> [] -> Forall (fun c => a_letter c = true) p -> inner p.
Proof. intros H1 H2. destruct p as [|c p]; [congruence|]. inversion H2; subst. apply (inner_char _ c); [left; reflexivity|]. apply an_plain. unfold an. rewrite H3. reflexivity. Qed.
Lemma shead c : SEnglish.core_ok c -> exists d r, ctext c = d :: r /\ an d = true.
Proof.
  intros Hc. destruct c as [p|n|p c|q p|u]; [exact (core_head (Plain p) Hc)|exact (core_head (Num n) Hc)|exact (core_head (Short p c) Hc)|exact (core_head (Hyph q p) Hc)|].
  cbn [SEnglish.core_ok] in Hc. destruct Hc as [(h & p & ps & Hh & _ & _ & _ & ->) _]. cbn [ctext].
  assert (L : forall d k, uncapital d = k -> (97 <= k <= 122)%N -> an d = true). { intros d k E Hk. unfold uncapital in E. unfold an, a_letter, upper_case, lower_case. destruct ((65 <=? d) && (d <=? 90))%N; [reflexivity|]. subst k. assert (X : ((97 <=? d) && (d <=? 122))%N = true) by (rewrite andb_true_iff, !N.leb_le; lia). rewrite X. reflexivity. }
  destruct h as [|d h]; [cbn [map In] in Hh; destruct Hh as [F|[F|[F|[]]]]; discriminate F|]. exists d. eexists. split; [reflexivity|]. cbn [map In] in Hh. destruct Hh as [F|[F|[F|[]]]]; injection F as F _; (eapply L; [symmetry; exact F|lia]).
Qed.
Lemma core_inner c : SEnglish.core_ok c -> core_tokens c <> [] /\ Forall inner (core_tokens c).
Proof.
  intros Hc. destruct c as [p|n|p c|q p|key]; [| | |split; [discriminate|]; constructor; [|constructor]; destruct (shead _ Hc) as (d & r & E & Hd); cbn [core_tokens] in *; rewrite E; apply (inner_char _ d); [left; reflexivity|apply an_plain; apply Hd]|split; [discriminate|]; constructor; [|constructor]; destruct (shead (Web key) Hc) as (d & r & E & Hd); cbn [ctext] in E; rewrite E; apply (inner_char _ d); [left; reflexivity|apply an_plain; apply Hd]]; cbn [core_tokens SEnglish.core_ok] in *.
  - destruct Hc as [H1 H2]. destruct (list_eq_dec _ _ _) as [E|E].
    + split; [discriminate|]. pose proof (f_equal (@length _) E) as L. rewrite map_length in L. cbn in L. rewrite <- (firstn_skipn 3 p) in H2. apply Forall_app in H2. destruct H2 as [A1 A2]. apply Forall_cons; [|apply Forall_cons; [|apply Forall_nil]]; (apply letters_inner; [|assumption]); intros F; apply (f_equal (@length _)) in F; rewrite ?firstn_length, ?skipn_length in F; unfold str, char in *; rewrite L in F; discriminate F.
    + split; [discriminate|]. constructor; [|constructor]. apply letters_inner; assumption.
  - split; [discriminate|]. constructor; [|constructor]. destruct (shead (Num n) Hc) as (d & r & E & Hd). cbn [ctext] in E. rewrite E. apply (inner_char _ d); [left; reflexivity|apply an_plain; apply Hd].
  - split; [discriminate|]. destruct Hc as ([H1 H2] & _ & Hc). constructor; [apply letters_inner; assumption|]. constructor; [|constructor].
    assert (F : existsb plainc c = true) by (apply (clitic_all (existsb plainc)); [vm_compute; reflexivity|exact Hc]). apply existsb_exists in F. destruct F as (d & Hd & Hp). exact (inner_char _ d Hd Hp).
Qed.
Lemma cut_prepend s toks ss : s <> [] -> Forall inner s -> sentences toks ss -> sentences (s ++ toks) (match ss with [] => [s] | x :: xs => (s ++ x) :: xs end).
Proof.
  intros Hn Hs H. destruct H as [|x Hx Fx|x e rest ss Fx He Hr|x p rest ss Fx Hp Hr].
  - rewrite app_nil_r. apply cut_last; assumption.
  - apply cut_last; [intros F; apply app_eq_nil in F; tauto|]. apply Forall_app. split; assumption.
  - rewrite !app_assoc. apply cut_ender; [apply Forall_app; split; assumption|exact He|exact Hr].
  - rewrite !app_assoc. apply cut_mark; [apply Forall_app; split; assumption|exact Hp|exact Hr].
Qed.
Lemma ender_one m : In m (lit ".?!:") -> ends_sentence [m].
Proof. intros H. split; [discriminate|]. constructor; [|constructor]. cbn in *. tauto. Qed.
Lemma english_cut ws : SEnglish.english ws -> sentences (english_tokens ws) (english_sentences ws).
Proof.
  assert (E : forall c m toks ss, SEnglish.core_ok c -> In m (lit ".?!:") -> sentences toks ss -> sentences ((core_tokens c ++ [[m]]) ++ toks) ((core_tokens c ++ [[m]]) :: ss)).
  { intros c m toks ss Hc Hm H. rewrite <- app_assoc. apply cut_ender; [apply core_inner; exact Hc|apply ender_one; exact Hm|exact H]. }
  induction 1 as [|c ws Hc Hw IH|c m ws Hc Hnw Hm Hw IH|c ws Hc Hs Hw IH]; cbn [english_tokens english_sentences]; [constructor| | |]; unfold ends_here, word_tokens; cbn [e_mark e_core].
  - destruct (core_inner c Hc). apply cut_prepend; assumption.
  - cbn in Hm. destruct (core_inner c Hc) as [H1 H2].
    assert (P : plainc m = true -> sentences ((core_tokens c ++ [[m]]) ++ english_tokens ws) (match english_sentences ws with [] => [core_tokens c ++ [[m]]] | x :: xs => ((core_tokens c ++ [[m]]) ++ x) :: xs end)).
    { intros Hp. apply cut_prepend; [intros F; apply app_eq_nil in F; tauto| |exact IH]. apply Forall_app. split; [exact H2|]. constructor; [|constructor]. apply (inner_char _ m); [left; reflexivity|exact Hp]. }
    destruct Hm as [<-|[<-|[<-|[<-|[<-|[]]]]]]; cbn [N.eqb Pos.eqb andb orb]; first [apply P; reflexivity|apply E; [exact Hc|cbn; tauto|exact IH]].
  - cbn [N.eqb Pos.eqb andb orb]. destruct (dot_kept c (next_char ws)); cbn [negb].
    + apply cut_prepend; [discriminate| |exact IH]. constructor; [|constructor]. destruct (shead c Hc) as (d & r & Ed & Hd). unfold written. cbn [e_core]. rewrite Ed. apply (inner_char _ d); [left; reflexivity|apply an_plain; apply Hd].
    + apply E; [exact Hc|cbn; tauto|exact IH].
Qed.
(** *** the characters of the tokens *)
Lemma tokens_low w next : aok w -> Forall (Forall low) (word_tokens w next).
Proof.
  intros Hw. pose proof (written_low w Hw) as HL. assert (HC : Forall low (ctext (e_core w))) by (unfold written in HL; apply Forall_app in HL; apply HL).
  assert (CT : Forall (Forall low) (core_tokens (e_core w))).
  { destruct (e_core w) as [p|n|p c|q p|key]; cbn [core_tokens ctext] in *; [|constructor; [exact HC|constructor]| |constructor; [exact HC|constructor]|constructor; [exact HC|constructor]].
    - destruct (list_eq_dec _ _ _); [|constructor; [exact HC|constructor]]. rewrite <- (firstn_skipn 3 p) in HC. apply Forall_app in HC. destruct HC as [H1 H2]. constructor; [exact H1|constructor; [exact H2|constructor]].
    - apply Forall_app in HC. destruct HC as [H1 H2]. constructor; [exact H1|constructor; [exact H2|constructor]]. }
  unfold word_tokens. unfold written in HL. destruct (e_mark w) as [m|] eqn:Em; [|exact CT]. destruct (_ && _).
  - constructor; [|constructor]. unfold written. rewrite Em. exact HL.
  - apply Forall_app. split; [exact CT|]. apply Forall_app in HL. destruct HL as [_ HL]. constructor; [exact HL|constructor].
Qed.
Lemma english_low ws : Forall aok ws -> Forall (Forall low) (english_tokens ws).
Proof. induction 1 as [|w ws Hw _ IH]; [constructor|]. cbn [english_tokens]. apply Forall_app. split; [apply tokens_low; exact Hw|exact IH]. Qed.

Definition line_tokens (ws : list eword) : list str := match ws with [] => [[]] | _ => english_tokens ws end.
Lemma line_cut ws : SEnglish.english ws -> sentences (line_tokens ws) (line_sentences ws).
Proof.
  intros H. destruct ws as [|w ws]; [|apply english_cut; exact H]. apply cut_last; [discriminate|]. constructor; [|constructor]. split; [intros [F _]; congruence|discriminate].
Qed.
Section Sent.
  Context (U : udb) (OK : udb_ok U).
  Lemma words_of_join l : Forall (fun x => x <> [] /\ Forall (fun c => u_space U c = false) x) l -> words_of U (join [32%N] l) l.
  Proof.
    induction 1 as [|x l [H1 H2] Hl IH]; [constructor; intros c []|]. rewrite Forall_forall in H2. destruct l as [|y l].
    - change (join [32%N] [x]) with x. rewrite <- (app_nil_r x) at 1. apply (words_next U [] x [] []); [intros c []|exact H1|exact H2|discriminate|constructor; intros c []].
    - change (join [32%N] (x :: y :: l)) with ([] ++ x ++ ([32%N] ++ join [32%N] (y :: l))). constructor; [intros c []|exact H1|exact H2| |].
      + intros c r E. injection E as <- _. rewrite (ok_space U OK) by reflexivity. reflexivity.
      + assert (S : forall s t l', (forall c, In c s -> u_space U c = true) -> words_of U t l' -> words_of U (s ++ t) l').
        { intros s t l' Hs [s' Hs'|s' w0 rest ws Hs' Hn Hw Hr Hrest]; [constructor; intros c Hc; apply in_app_iff in Hc; destruct Hc; auto|]. rewrite app_assoc. constructor; auto. intros c Hc. apply in_app_iff in Hc. destruct Hc; auto. }
        apply S; [|exact IH]. intros c [<-|[]]. rewrite (ok_space U OK) by reflexivity. reflexivity.
  Qed.
  Lemma block_chars b ws c : SEnglish.english ws -> words_of U b (map written ws) -> In c b -> c <> 34%N /\ c <> 40%N.
  Proof.
    intros He Hw Hc. destruct (words_of_in U b _ c Hw Hc) as [F|(w0 & H1 & H2)].
    - split; intros ->; rewrite (ok_space U OK) in F by reflexivity; discriminate F.
    - apply in_map_iff in H1. destruct H1 as (v & <- & Hv). pose proof (english_aok ws He) as HW. rewrite Forall_forall in HW. destruct (HW v Hv) as [Hk|(u & m & -> & Hu & Hm)]; [pose proof (wok_wch v Hk) as F; rewrite Forall_forall in F; specialize (F c H2); split; intros ->; discriminate F|]. unfold written in H2. cbn [e_core e_mark ctext] in H2. apply in_app_iff in H2. destruct H2 as [H2|H2].
      + pose proof (addr_chars u Hu) as F. rewrite Forall_forall in F. destruct (F c H2) as (_ & _ & _ & F1 & F2). split; assumption.
      + destruct Hm as [-> | ->]; [destruct H2|destruct H2 as [<-|[]]; split; discriminate].
  Qed.
  Lemma blocks_chars text blocks wss : split_blocks U text blocks -> Forall2 (fun b ws => SEnglish.english ws /\ words_of U b (map written ws)) blocks wss -> forall c, In c text -> c <> 34%N /\ c <> 40%N.
  Proof.
    intros H. revert wss. induction H as [b Hb|b s rest bs Hb Hl Hs Hn Hr H IH]; intros wss F c Hc; inversion F as [|? ws ? wss' (He & Hw) F']; subst.
    - exact (block_chars b ws c He Hw Hc).
    - apply in_app_iff in Hc. destruct Hc as [Hc|Hc]; [exact (block_chars b ws c He Hw Hc)|]. apply in_app_iff in Hc. destruct Hc as [Hc|Hc]; [|exact (IH wss' F' c Hc)]. specialize (Hs c Hc). split; intros ->; rewrite (ok_space U OK) in Hs by reflexivity; discriminate Hs.
  Qed.
  Theorem sentencize_english text blocks wss : split_blocks U text blocks -> Forall2 (fun b ws => SEnglish.english ws /\ SEnglish.apart ws /\ words_of U b (map written ws)) blocks wss ->
    sentencize U (tokenize U) text = Ok (concat (map line_sentences wss)).
  Proof.
    intros HB HF. assert (HF0 : Forall2 (fun b ws => SEnglish.english ws /\ words_of U b (map written ws)) blocks wss) by (clear HB; induction HF as [|b ws blocks wss (He & Hap & Hw) HF IH]; constructor; auto). destruct (sentencize_plain U OK (tokenize U) text blocks (map line_tokens wss) (blocks_chars text blocks wss HB HF0) HB) as (ss & HS & E).
    - clear HB HF0. induction HF as [|b ws blocks wss (He & Hap & Hw) HF IH]; [constructor|]. cbn [map]. constructor; [|exact IH]. split.
      + rewrite (words_of_fun U b _ Hw). destruct ws as [|w ws]; [reflexivity|]. apply tokenize_english; [exact OK|discriminate|exact He|exact Hap|]. apply words_of_join. rewrite <- (words_of_fun U b _ Hw). apply split_ws_words.
      + assert (L : Forall (Forall low) (line_tokens ws)) by (destruct ws as [|w ws]; [constructor; constructor|apply english_low, english_aok; exact He]). eapply Forall_impl; [|exact L]. intros t Ht c t' -> Hr. inversion Ht; subst. unfold low in H1. cbn in Hr. repeat destruct Hr as [<-|Hr]; try discriminate H1. contradiction.
    - rewrite E. f_equal. f_equal. clear E HB HF0. revert ss HS. induction HF as [|b ws blocks wss (He & Hap & Hw) HF IH]; intros ss HS; cbn [map] in HS; inversion HS as [|? s0 ? ss0 S1 S2]; subst; [reflexivity|]. cbn [map]. f_equal; [|apply IH; exact S2]. exact (sentences_fun _ _ _ S1 (line_cut ws He)).
  Qed.
End Sent.
