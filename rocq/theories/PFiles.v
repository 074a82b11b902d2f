(** Properties C78 to C80: word lists and word vectors read from text files (utils/files.py:38-47, pipeline/logic_pipeline.py:22-33,
    syntax/wordset.py). *)
From Coq Require Import Ascii String.
From Coq Require Import List NArith ZArith Arith Bool Lia.
From Verif Require Import PyBase Regex MUtils MTree MVector MNgram MLangModel MNormal MFiles MData SUtils SVector SNormal SFiles LBase LText LUdb LUtils LNormal LFiles LShipped.
Import ListNotations.
Local Open Scope nat_scope.

(** * C78: word lists *)
(** The lines of a file are determined by its content, whatever the newlines. *)
Theorem C78_lines : forall content, exists! ls, text_file ls content.
Proof.
  intros content. destruct (text_file_exists content) as [ls H]. exists ls. split; [exact H|]. intros ls' H'. exact (text_file_unique _ _ _ H H').
Qed.
Theorem C78_set : forall U content ls, udb_ok U -> text_file ls content ->
  NoDup (load_set_from_txt_file U content) /\ forall x, In x (load_set_from_txt_file U content) <-> exists l, In l ls /\ trimmed U l x.
Proof.
  intros U content ls OK H. rewrite (set_eq U OK ls content H). destruct (set_spec U ls [] (NoDup_nil _)) as [H1 H2]. split; [exact H1|].
  intros x. rewrite H2. split.
  - intros [[]|(l & Hl & ->)]. exists l. split; [exact Hl|apply strip_trimmed].
  - intros (l & Hl & Ht). right. exists l. split; [exact Hl|]. symmetry. apply trimmed_strip. exact Ht.
Qed.
(** The value of a key is that of the last line with this key; when no key is repeated, the dictionary is the list of the lines. *)
Theorem C78_dict : forall U content ls, udb_ok U -> text_file ls content -> (forall l, In l ls -> exists k v, two_columns U l k v) ->
  exists d, load_dict_from_txt_file U content = Ok d /\ NoDup (map fst d) /\
    (forall k v, dget str_eqb k d = Some v <-> exists before l after, ls = before ++ l :: after /\ two_columns U l k v /\ forall l' v', In l' after -> ~ two_columns U l' k v') /\
    (forall pairs, Forall2 (fun l p => two_columns U l (fst p) (snd p)) ls pairs -> NoDup (map fst pairs) -> d = pairs).
Proof.
  intros U content ls OK H HA. rewrite (rows_eq U OK ls content H). destruct (mapM_rows_ok U ls HA) as [pairs E]. rewrite E. cbn [rbind].
  pose proof (mapM_rows U ls pairs E) as F. destruct (dset_fold pairs [] (NoDup_nil _)) as [H1 H2]. cbv zeta in H1, H2.
  eexists. split; [reflexivity|]. split; [exact H1|]. split.
  - intros k v. rewrite H2. split.
    + intros [(p1 & p2 & -> & Hn)|[_ F']]; [|discriminate]. apply Forall2_app_inv_r in F. destruct F as (b & r & F1 & F2 & ->).
      inversion F2 as [|l p r' ps Hl F3]; subst. exists b, l, r'. split; [reflexivity|]. split; [exact Hl|]. intros l' v' Hin Ht.
      apply Hn. clear -F3 Hin Ht. induction F3 as [|x q xs qs Hq F3 IH]; [destruct Hin|]. destruct Hin as [->|Hin].
      * left. symmetry. exact (proj1 (two_columns_fun U _ _ _ _ _ Ht Hq)).
      * right. auto.
    + intros (b & l & a & -> & Hl & Hn). left. apply Forall2_app_inv_l in F. destruct F as (p1 & r & F1 & F2 & ->).
      inversion F2 as [|l0 [k0 v0] a0 p2 Hk F3]; subst. cbn in Hk. destruct (two_columns_fun U l k v k0 v0 Hl Hk) as [-> ->]. exists p1, p2. split; [reflexivity|].
      intros Hin. apply in_map_iff in Hin. destruct Hin as ([k1 v1] & E1 & Hin). cbn in E1. subst k1.
      clear -F3 Hin Hn. induction F3 as [|x q xs qs Hq F3 IH]; [destruct Hin|]. destruct Hin as [->|Hin].
      * exact (Hn x v1 (or_introl eq_refl) Hq).
      * apply IH; [|exact Hin]. intros l' v' Hl'. apply Hn. right. exact Hl'.
  - intros pairs' F' HN. assert (EE : pairs' = pairs).
    { clear -F F'. revert pairs' F'. induction F as [|l [k v] ls ps Hl F IH]; intros pairs' F'; inversion F' as [|? [k' v'] ? ps' Hl' F'']; subst; [reflexivity|].
      cbn in *. destruct (two_columns_fun U l k v k' v' Hl Hl') as [-> ->]. f_equal. auto. }
    subst pairs'. clear -HN. assert (K : forall (ps : list (str * str)) d, NoDup (map fst d ++ map fst ps) -> fold_left (fun d '(key, value) => dset str_eqb key value d) ps d = d ++ ps).
    { induction ps as [|[k v] ps IH]; intros d HN'; cbn [fold_left]; [symmetry; apply app_nil_r|].
      rewrite (dset_new str_eqb), IH.
      - rewrite <- app_assoc. reflexivity.
      - rewrite map_app, <- app_assoc. exact HN'.
      - destruct (dget str_eqb k d) as [v'|] eqn:E; [|reflexivity]. exfalso. apply (dget_In str_eqb str_eqb_ok) in E. cbn in HN'.
        apply NoDup_remove_2 in HN'. apply HN'. apply in_or_app. left. change k with (fst (k, v')). apply in_map. exact E. }
    apply K. exact HN.
Qed.
Theorem C78_dict_error : forall U content ls, udb_ok U -> text_file ls content -> (exists l, In l ls /\ forall k v, ~ two_columns U l k v) ->
  load_dict_from_txt_file U content = Err ValueError.
Proof. intros U content ls OK H HE. rewrite (rows_eq U OK ls content H), (mapM_rows_err U ls HE). reflexivity. Qed.
(** The word lists of a pipeline are those of its files; the participle of a lemma is the last one of the table. *)
Theorem C78_english : forall U f lx nouns, load_english U f = Ok (lx, nouns) ->
  load_dict_from_txt_file U (f_preterits f) = Ok (lx_preterit lx) /\ load_dict_from_txt_file U (f_past_participles f) = Ok (lx_pp lx) /\
  load_dict_from_txt_file U (f_plurals f) = Ok (lx_plural lx) /\ load_dict_from_txt_file U (f_comparatives f) = Ok (lx_comparative lx) /\
  load_dict_from_txt_file U (f_superlatives f) = Ok (lx_superlative lx) /\
  nouns = load_set_from_txt_file U (f_nouns f) /\ lx_adjs lx = load_set_from_txt_file U (f_adjectives f) /\
  (forall l w, dget str_eqb l (lx_lemma_pp lx) = Some w <-> exists before after, lx_pp lx = before ++ (w, l) :: after /\ ~ In l (map snd after)).
Proof.
  intros U f lx nouns H. unfold load_english in H.
  destruct (load_dict_from_txt_file U (f_preterits f)); cbn [rbind] in H; [|discriminate].
  destruct (load_dict_from_txt_file U (f_past_participles f)) as [pp|]; cbn [rbind] in H; [|discriminate].
  destruct (load_dict_from_txt_file U (f_plurals f)); cbn [rbind] in H; [|discriminate].
  destruct (load_dict_from_txt_file U (f_comparatives f)); cbn [rbind] in H; [|discriminate].
  destruct (load_dict_from_txt_file U (f_superlatives f)); cbn [rbind] in H; [|discriminate].
  cbv zeta in H. injection H as <- <-. cbn. repeat (split; [reflexivity|]). intros l w. apply (reverse_dget str_eqb str_eqb_ok).
Qed.

(** * C79: irregular forms *)
(** With any tables: the participle given for a verb of the table is one of its participles, and is lemmatized back to the verb unless
    it is one of the special forms of a verb. *)
Theorem C79_participle : forall U P L leL zero ninf tokenize (m : lm P L) f lx nouns l w, load_english U f = Ok (lx, nouns) ->
  In l (map snd (lx_pp lx)) -> past_participle P L leL zero ninf tokenize m (lx_lemma_pp lx) l = Ok w ->
  In (w, l) (lx_pp lx) /\
  ((forall l' s', ~ is_special VERB w l' s') -> forall word, lower U word = w -> lemmatize U P L leL zero ninf m lx word VERB = Ok (l, Some PAST)).
Proof.
  intros U P L leL zero ninf tokenize m f lx nouns l w H Hin HP. pose proof (C78_english U f lx nouns H) as (_ & HL & _ & _ & _ & _ & _ & HR).
  assert (E : dget str_eqb l (lx_lemma_pp lx) = Some w).
  { unfold past_participle in HP. destruct (dget str_eqb l (lx_lemma_pp lx)) as [w'|] eqn:E; [injection HP as ->; reflexivity|]. exfalso.
    assert (K : forall d : list (str * str), In l (map snd d) -> exists b w a, d = b ++ (w, l) :: a /\ ~ In l (map snd a)).
    { clear. induction d as [|[k v] d IH]; [intros []|]. intros H. destruct (in_dec (list_eq_dec N.eq_dec) l (map snd d)) as [Hi|Hn].
      - destruct (IH Hi) as (b & w & a & -> & Ha). exists ((k, v) :: b), w, a. auto.
      - destruct H as [H|H]; [cbn in H; subst v|contradiction]. exists [], k, d. auto. }
    destruct (K _ Hin) as (b & w' & a & E' & Ha). rewrite (proj2 (HR l w')) in E by eauto. discriminate. }
  apply HR in E. destruct E as (b & a & E & _). assert (HI : In (w, l) (lx_pp lx)) by (rewrite E; apply in_elt). split; [exact HI|].
  intros HS word Hw. unfold lemmatize. rewrite Hw. destruct (full_match w VERB) as [[l' s']|] eqn:EF; [exfalso; exact (HS _ _ (full_match_special _ _ _ _ EF))|].
  unfold irregular_lemma. destruct (text_file_exists (f_past_participles f)) as [ls HF].
  assert (HN : NoDup (dkeys (lx_pp lx))).
  { unfold load_dict_from_txt_file in HL. cbv zeta in HL. destruct (mapM unpack_pair _) as [pairs|]; cbn [rbind] in HL; [|discriminate]. injection HL as <-.
    exact (proj1 (dset_fold pairs [] (NoDup_nil _))). }
  rewrite (In_dget str_eqb str_eqb_ok _ _ _ HN HI). reflexivity.
Qed.
(** The tables shipped with the library, with any lists of nouns and adjectives: every irregular form is lemmatized to the lemma beside it,
    and every verb with an irregular participle is given this participle, for all language models. *)
Theorem C79_shipped : forall U P L leL zero ninf tokenize (m : lm P L) nouns_txt adjectives_txt, udb_ok U ->
  exists lx nouns, load_english U (shipped nouns_txt adjectives_txt) = Ok (lx, nouns) /\
  let lemma_of word t l s := lemmatize U P L leL zero ninf m lx word t = Ok (l, Some s) in
  (forall w l, listed U irregular_past_participles_txt w l ->
     past_participle P L leL zero ninf tokenize m (lx_lemma_pp lx) l = Ok w /\ forall word, lower U word = w -> lemma_of word VERB l PAST) /\
  (forall w l, listed U irregular_preterits_txt w l -> forall word, lower U word = w -> lemma_of word VERB l PAST) /\
  (forall w l, listed U irregular_plurals_txt w l -> forall word, lower U word = w -> lemma_of word NOUN l PLURAL) /\
  (forall w l, listed U irregular_comparatives_txt w l -> forall word, lower U word = w -> lemma_of word ADJ l COMPARATIVE) /\
  (forall w l, listed U irregular_superlatives_txt w l -> forall word, lower U word = w -> lemma_of word ADJ l SUPERLATIVE).
Proof. exact shipped_ok. Qed.

(** * C80: word vectors *)
Theorem C80_vectors : forall U V v0 float32 has_ngram content ls, udb_ok U -> text_file ls content ->
  (forall l, In l ls -> (exists word vector, vector_line U V float32 has_ngram l word vector) \/ other_line U has_ngram l) ->
  exists ws, wordset_save U V float32 has_ngram content = Ok ws /\
    (forall word vector before l after, ls = before ++ l :: after -> vector_line U V float32 has_ngram l (lower U word) vector ->
       (forall l' vector', In l' after -> ~ vector_line U V float32 has_ngram l' (lower U word) vector') -> word_vector V v0 U ws word = vector) /\
    (forall word, (forall l vector, In l ls -> ~ vector_line U V float32 has_ngram l (lower U word) vector) -> word_vector V v0 U ws word = repeat v0 100) /\
    (exists words, NoDup words /\ (forall w, In w words <-> exists l vector, In l ls /\ vector_line U V float32 has_ngram l w vector) /\
       wordset_len V ws = length words + 1) /\
    ((forall l word vector, In l ls -> vector_line U V float32 has_ngram l word vector -> length vector = 100) -> ws_ok V ws).
Proof. exact vectors_ok. Qed.
(** A blank line, a vector that is not made of numbers *)
Theorem C80_refused : forall U V float32 has_ngram content before l after, udb_ok U -> text_file (before ++ l :: after) content ->
  (forall l', In l' before -> (exists word vector, vector_line U V float32 has_ngram l' word vector) \/ other_line U has_ngram l') ->
  (blank U l -> wordset_save U V float32 has_ngram content = Err IndexError) /\
  (forall word nums1 n nums2 e, line_words U l (word :: nums1 ++ n :: nums2) -> has_ngram word = true -> Forall (fun x => exists v, float32 x = Ok v) nums1 ->
     float32 n = Err e -> wordset_save U V float32 has_ngram content = Err e).
Proof. exact vectors_refused. Qed.

(** * Witnesses *)
(** three lines: CR LF after the first, LF after the second, nothing after the last; the key "b" is repeated *)
Definition w_file : str := lit "b" ++ [9%N] ++ lit "a" ++ [13; 10]%N ++ lit " ate" ++ [9%N] ++ lit "eat  " ++ [10%N] ++ lit "b" ++ [9%N] ++ lit "c".
Definition w_lines : list str := [lit "b" ++ [9%N] ++ lit "a"; lit " ate" ++ [9%N] ++ lit "eat  "; lit "b" ++ [9%N] ++ lit "c"].
Lemma w_one_line l : forallb (fun c => negb (N.eqb c 10) && negb (N.eqb c 13)) l = true -> one_line l.
Proof.
  intros H. rewrite forallb_forall in H. split; intros F; specialize (H _ F); discriminate.
Qed.
Example C78_witness : text_file w_lines w_file /\ (forall l, In l w_lines -> exists k v, two_columns ascii_udb l k v) /\
  load_dict_from_txt_file ascii_udb w_file = Ok [(lit "b", lit "c"); (lit "ate", lit "eat")] /\
  load_set_from_txt_file ascii_udb (lit "cat" ++ [10%N] ++ lit "dog " ++ [13%N] ++ lit "cat") = [lit "cat"; lit "dog"] /\
  load_dict_from_txt_file ascii_udb (lit "a b") = Err ValueError.
Proof.
  split; [|split; [|split; [vm_compute; reflexivity|split; vm_compute; reflexivity]]].
  - unfold w_lines, w_file. repeat rewrite <- app_assoc. apply (file_line (lit "b" ++ [9%N] ++ lit "a") [13; 10]%N); [apply w_one_line; reflexivity|right; left; reflexivity|discriminate|].
    apply (file_line (lit " ate" ++ [9%N] ++ lit "eat  ") [10%N]); [apply w_one_line; reflexivity|left; reflexivity|discriminate|]. constructor; [discriminate|apply w_one_line; reflexivity].
  - intros l [<-|[<-|[<-|[]]]].
    + exists (lit "b"), (lit "a"). apply row_spec. reflexivity.
    + exists (lit "ate"), (lit "eat"). apply row_spec. reflexivity.
    + exists (lit "b"), (lit "c"). apply row_spec. reflexivity.
Qed.
(** a pair of each shipped table, and a table with two participles for one verb *)
Example C79_witness : listed ascii_udb irregular_past_participles_txt (lit "written") (lit "write") /\ listed ascii_udb irregular_preterits_txt (lit "wrote") (lit "write") /\
  listed ascii_udb irregular_plurals_txt (lit "hot dogs") (lit "hot dog") /\ listed ascii_udb irregular_comparatives_txt (lit "better") (lit "good") /\
  exists lx nouns, load_english ascii_udb {| f_preterits := []; f_past_participles := lit "cleft" ++ [9%N] ++ lit "cleave" ++ [10%N] ++ lit "cloven" ++ [9%N] ++ lit "cleave";
      f_plurals := []; f_comparatives := []; f_superlatives := []; f_nouns := []; f_adjectives := [] |} = Ok (lx, nouns) /\
    In (lit "cleave") (map snd (lx_pp lx)) /\ dget str_eqb (lit "cleave") (lx_lemma_pp lx) = Some (lit "cloven").
Proof.
  assert (K : forall content k v, existsb (fun l => match row ascii_udb l with Ok (k', v') => str_eqb k k' && str_eqb v v' | Err _ => false end) (map drop_nl (file_lines content)) = true ->
    listed ascii_udb content k v).
  { intros content k v H. destruct (text_file_exists content) as [ls HF]. apply existsb_exists in H. destruct H as (l & Hin & H).
    destruct (row ascii_udb l) as [[k' v']|] eqn:E; [|discriminate]. apply andb_prop in H. destruct H as [H1 H2]. apply str_eqb_ok in H1, H2. subst k' v'.
    exists ls, l. split; [exact HF|]. split; [|apply row_spec; exact E].
    pose proof (file_lines_spec _ _ HF) as F. pose proof (text_file_one_line _ _ HF) as O. clear HF E. revert Hin. induction F as [|a b ls ms Hm F IH]; [intros []|].
    inversion O; subst. intros [<-|Hin]; [left; symmetry; apply drop_nl_ok; [apply H1|exact Hm]|right; auto]. }
  split; [apply K; vm_compute; reflexivity|]. split; [apply K; vm_compute; reflexivity|]. split; [apply K; vm_compute; reflexivity|]. split; [apply K; vm_compute; reflexivity|].
  do 2 eexists. split; [vm_compute; reflexivity|]. split; [vm_compute; auto|vm_compute; reflexivity].
Qed.
(** numbers are read as naturals *)
Definition w_num (s : str) : res Z := int_of_str ascii_space s.
Definition w_has (s : str) : bool := negb (str_eqb s (lit "dog")).
Example C80_witness : let content := lit "cat 1 2" ++ [10%N] ++ lit "dog x" ++ [10%N] ++ lit "cat 3" ++ [10%N] in
  (exists ws, wordset_save ascii_udb Z w_num w_has content = Ok ws /\ word_vector Z 0%Z ascii_udb ws (lit "Cat") = [3%Z] /\ word_vector Z 0%Z ascii_udb ws (lit "dog") = repeat 0%Z 100 /\
     wordset_len Z ws = 2) /\
  (forall ls, text_file ls content -> forall l, In l ls -> (exists word vector, vector_line ascii_udb Z w_num w_has l word vector) \/ other_line ascii_udb w_has l) /\
  wordset_save ascii_udb Z w_num w_has (lit "cat 1" ++ [10%N] ++ lit " " ++ [10%N]) = Err IndexError.
Proof.
  cbv zeta. split; [eexists; split; [vm_compute; reflexivity|]; repeat split; vm_compute; reflexivity|]. split; [|vm_compute; reflexivity].
  intros ls H. assert (E : ls = [lit "cat 1 2"; lit "dog x"; lit "cat 3"]).
  { eapply text_file_unique; [exact H|]. change (lit "cat 1 2" ++ [10%N] ++ lit "dog x" ++ [10%N] ++ lit "cat 3" ++ [10%N]) with (lit "cat 1 2" ++ [10%N] ++ lit "dog x" ++ [10%N] ++ lit "cat 3" ++ [10%N] ++ []).
    do 3 (constructor; [apply w_one_line; reflexivity|left; reflexivity|discriminate|]). constructor. }
  subst ls. intros l [<-|[<-|[<-|[]]]].
  - left. exists (lit "cat"), [1; 2]%Z. exists [lit "1"; lit "2"]. split; [apply line_words_iff; reflexivity|]. split; [reflexivity|]. repeat constructor.
  - right. exists (lit "dog"), [lit "x"]. split; [apply line_words_iff; reflexivity|reflexivity].
  - left. exists (lit "cat"), [3]%Z. exists [lit "3"]. split; [apply line_words_iff; reflexivity|]. split; [reflexivity|]. repeat constructor.
Qed.

Print Assumptions C78_lines.
Print Assumptions C78_set.
Print Assumptions C78_dict.
Print Assumptions C78_dict_error.
Print Assumptions C78_english.
Print Assumptions C79_participle.
Print Assumptions C79_shipped.
Print Assumptions C80_vectors.
Print Assumptions C80_refused.
