(** The irregular tables shipped with the library (C79). *)
From Coq Require Import Ascii String.
From Coq Require Import List NArith ZArith Arith Bool Lia.
From Verif Require Import PyBase Regex MUtils MTree MVector MNgram MLangModel MNormal MFiles MData SFiles LBase LText LUdb LFiles.
Import ListNotations.
Local Open Scope nat_scope.

Definition table (content : str) : list (str * str) := match load_dict_from_txt_file ascii_udb content with Ok d => d | Err _ => [] end.
Definition pp_t := Eval vm_compute in table irregular_past_participles_txt.
Definition pret_t := Eval vm_compute in table irregular_preterits_txt.
Definition plur_t := Eval vm_compute in table irregular_plurals_txt.
Definition comp_t := Eval vm_compute in table irregular_comparatives_txt.
Definition sup_t := Eval vm_compute in table irregular_superlatives_txt.
Definition rev_t := Eval vm_compute in reverse_dict str_eqb pp_t.
Definition suffix_eqb (a b : suffix) : bool := match a, b with
  | PAST, PAST | PLURAL, PLURAL | COMPARATIVE, COMPARATIVE | SUPERLATIVE, SUPERLATIVE => true | _, _ => false end.
Definition is_result (r : option (str * option suffix)) (l : str) (s : suffix) : bool :=
  match r with Some (l', Some s') => str_eqb l l' && suffix_eqb s s' | _ => false end.
(** the tables give the lemma, and the special forms do not contradict them *)
Definition lx_of (adjs : list str) : lexicon := {| lx_adjs := adjs; lx_preterit := pret_t; lx_pp := pp_t; lx_plural := plur_t; lx_comparative := comp_t;
  lx_superlative := sup_t; lx_lemma_pp := rev_t; lx_prefixes := PREFIXES |}.
Definition check_entry (t : tag) (s : suffix) (p : str * str) : bool :=
  match full_match (fst p) t with
  | Some r => is_result (Some r) (snd p) s
  | None => is_result (irregular_lemma (lx_of []) (fst p) t) (snd p) s
  end.
Lemma is_result_ok r l s : is_result r l s = true -> r = Some (l, Some s).
Proof.
  unfold is_result. destruct r as [[l' [s'|]]|]; try discriminate. intros H. apply andb_prop in H. destruct H as [H1 H2]. apply str_eqb_ok in H1. subst l'.
  destruct s, s'; try discriminate; reflexivity.
Qed.
Section Shipped.
  Context (U : udb) (OK : udb_ok U) (P L : Type) (leL : L -> L -> bool) (zero : P) (ninf : L) (tokenize : option str -> res (list str)) (m : lm P L) (adjs : list str).
  Lemma check_lemma t s p word : check_entry t s p = true -> lower U word = fst p ->
    lemmatize U P L leL zero ninf m (lx_of adjs) word t = Ok (snd p, Some s).
  Proof.
    intros H E. unfold check_entry in H. unfold lemmatize. rewrite E. destruct (full_match (fst p) t) as [r|].
    - apply is_result_ok in H. injection H as ->. reflexivity.
    - change (irregular_lemma (lx_of adjs) (fst p) t) with (irregular_lemma (lx_of []) (fst p) t). rewrite (is_result_ok _ _ _ H). reflexivity.
  Qed.
  Lemma check_pp p : str_eqb (match dget str_eqb (snd p) rev_t with Some w => w | None => [] end) (fst p) && negb (match fst p with [] => true | _ => false end) = true ->
    past_participle P L leL zero ninf tokenize m rev_t (snd p) = Ok (fst p).
  Proof.
    intros H. apply andb_prop in H. destruct H as [H1 H2]. apply str_eqb_ok in H1. unfold past_participle. destruct (dget str_eqb (snd p) rev_t) as [w|].
    - rewrite H1. reflexivity.
    - rewrite <- H1 in H2. discriminate.
  Qed.
End Shipped.
(** a pair that is listed is in the table, when no key is repeated *)
Definition rows_of (content : str) : list (str * str) :=
  match mapM unpack_pair (map (fun line => split_chr 9%N (strip (u_space ascii_udb) line)) (file_lines content)) with Ok l => l | Err _ => [] end.
Lemma listed_rows U content w l : udb_ok U -> forallb (fun c => N.ltb c 128) content = true ->
  negb (match rows_of content with [] => true | _ => false end) = true -> listed U content w l -> In (w, l) (rows_of content).
Proof.
  intros OK HA HN (ls & line & HF & Hin & HT). pose proof (proj2 (row_spec U line w l) HT) as HR. unfold rows_of in *.
  destruct (mapM unpack_pair _) as [rows|] eqn:E; [|discriminate]. clear HN.
  pose proof (file_lines_spec _ _ HF) as F.
  assert (HC : forall x c, In x (file_lines content) -> In c x -> (c < 128)%N).
  { intros x c Hx Hc. destruct (newlines_in c content) as [G| ->]; [exact (lines_in _ _ _ Hx Hc)|rewrite forallb_forall in HA; apply N.ltb_lt, HA; exact G|lia]. }
  clear HF HA HT. revert rows E. induction F as [|a b ls ms Hm F IH]; intros rows E; [destruct Hin|]. cbn [map mapM] in E.
  destruct (unpack_pair (split_chr 9%N (strip (u_space ascii_udb) b))) as [p|] eqn:Ep; cbn [rbind] in E; [|discriminate].
  match type of E with context [mapM unpack_pair ?x] => destruct (mapM unpack_pair x) as [ps|] eqn:Eps end; cbn [rbind] in E; [|discriminate]. injection E as <-.
  destruct Hin as [->|Hin].
  - left. rewrite (strip_ext (u_space ascii_udb) (u_space U)) in Ep.
    + rewrite (strip_line U line b (sp10 U OK) Hm) in Ep. unfold row in HR. rewrite HR in Ep. injection Ep as <-. reflexivity.
    + intros c Hc. assert (Hb : (c < 128)%N) by (eapply HC; [left; reflexivity|exact Hc]). rewrite (ok_space U OK) by exact Hb. apply (ok_space ascii_udb ascii_udb_ok). exact Hb.
  - right. apply IH; [exact Hin| |reflexivity]. intros x c Hx. apply HC. right. exact Hx.
Qed.
Definition ascii (content : str) : bool := forallb (fun c => N.ltb c 128) content.
Definition nonempty {A} (l : list A) : bool := negb (match l with [] => true | _ => false end).
Definition check_all : bool :=
  forallb (check_entry VERB PAST) (rows_of irregular_past_participles_txt) && forallb (check_entry VERB PAST) (rows_of irregular_preterits_txt) &&
  forallb (check_entry NOUN PLURAL) (rows_of irregular_plurals_txt) && forallb (check_entry ADJ COMPARATIVE) (rows_of irregular_comparatives_txt) &&
  forallb (check_entry ADJ SUPERLATIVE) (rows_of irregular_superlatives_txt) &&
  forallb (fun p => str_eqb (match dget str_eqb (snd p) rev_t with Some w => w | None => [] end) (fst p) && negb (match fst p with [] => true | _ => false end)) (rows_of irregular_past_participles_txt).
Lemma check_all_ok : check_all = true. Proof. vm_compute. reflexivity. Qed.
Lemma files_ok : forallb (fun c => ascii c && nonempty (rows_of c))
  [irregular_past_participles_txt; irregular_preterits_txt; irregular_plurals_txt; irregular_comparatives_txt; irregular_superlatives_txt] = true.
Proof. vm_compute. reflexivity. Qed.
Lemma tables_loaded : load_dict_from_txt_file ascii_udb irregular_past_participles_txt = Ok pp_t /\ load_dict_from_txt_file ascii_udb irregular_preterits_txt = Ok pret_t /\
  load_dict_from_txt_file ascii_udb irregular_plurals_txt = Ok plur_t /\ load_dict_from_txt_file ascii_udb irregular_comparatives_txt = Ok comp_t /\
  load_dict_from_txt_file ascii_udb irregular_superlatives_txt = Ok sup_t /\ reverse_dict str_eqb pp_t = rev_t.
Proof. repeat split; vm_compute; reflexivity. Qed.

Lemma shipped_loaded U nouns_txt adjectives_txt : udb_ok U ->
  load_english U (shipped nouns_txt adjectives_txt) = Ok (lx_of (load_set_from_txt_file U adjectives_txt), load_set_from_txt_file U nouns_txt).
Proof.
  intros OK. pose proof files_ok as F. cbn [forallb] in F. apply andb_prop in F. destruct F as [A1 F]. apply andb_prop in F. destruct F as [A2 F].
  apply andb_prop in F. destruct F as [A3 F]. apply andb_prop in F. destruct F as [A4 F]. apply andb_prop in F. destruct F as [A5 _].
  apply andb_prop in A1, A2, A3, A4, A5. destruct tables_loaded as (T1 & T2 & T3 & T4 & T5 & T6).
  unfold load_english, shipped. cbn [f_preterits f_past_participles f_plurals f_comparatives f_superlatives f_nouns f_adjectives].
  rewrite (load_dict_ascii U _ OK (proj1 A2)), T2. cbn [rbind]. rewrite (load_dict_ascii U _ OK (proj1 A1)), T1. cbn [rbind].
  rewrite (load_dict_ascii U _ OK (proj1 A3)), T3. cbn [rbind]. rewrite (load_dict_ascii U _ OK (proj1 A4)), T4. cbn [rbind].
  rewrite (load_dict_ascii U _ OK (proj1 A5)), T5. cbn [rbind]. cbv zeta. rewrite T6. reflexivity.
Qed.
Lemma shipped_ok : forall U P L leL zero ninf tokenize (m : lm P L) nouns_txt adjectives_txt, udb_ok U ->
  exists lx nouns, load_english U (shipped nouns_txt adjectives_txt) = Ok (lx, nouns) /\
  let lemma_of word t l s := lemmatize U P L leL zero ninf m lx word t = Ok (l, Some s) in
  (forall w l, listed U irregular_past_participles_txt w l ->
     past_participle P L leL zero ninf tokenize m (lx_lemma_pp lx) l = Ok w /\ forall word, lower U word = w -> lemma_of word VERB l PAST) /\
  (forall w l, listed U irregular_preterits_txt w l -> forall word, lower U word = w -> lemma_of word VERB l PAST) /\
  (forall w l, listed U irregular_plurals_txt w l -> forall word, lower U word = w -> lemma_of word NOUN l PLURAL) /\
  (forall w l, listed U irregular_comparatives_txt w l -> forall word, lower U word = w -> lemma_of word ADJ l COMPARATIVE) /\
  (forall w l, listed U irregular_superlatives_txt w l -> forall word, lower U word = w -> lemma_of word ADJ l SUPERLATIVE).
Proof.
  intros U P L leL zero ninf tokenize m nt at_ OK. do 2 eexists. split; [apply shipped_loaded; exact OK|]. cbv zeta.
  pose proof check_all_ok as C. unfold check_all in C. do 5 (apply andb_prop in C; destruct C as [C ?C]).
  pose proof files_ok as F. cbn [forallb] in F. apply andb_prop in F. destruct F as [A1 F]. apply andb_prop in F. destruct F as [A2 F].
  apply andb_prop in F. destruct F as [A3 F]. apply andb_prop in F. destruct F as [A4 F]. apply andb_prop in F. destruct F as [A5 _].
  apply andb_prop in A1, A2, A3, A4, A5.
  assert (K : forall content t s w l word, ascii content = true -> nonempty (rows_of content) = true -> forallb (check_entry t s) (rows_of content) = true ->
     listed U content w l -> lower U word = w -> lemmatize U P L leL zero ninf m (lx_of (load_set_from_txt_file U at_)) word t = Ok (l, Some s)).
  { intros content t s w l word Ha Hn Hc Hl Hw. pose proof (listed_rows U content w l OK Ha Hn Hl) as Hin. rewrite forallb_forall in Hc.
    exact (check_lemma U P L leL zero ninf m _ t s (w, l) word (Hc _ Hin) Hw). }
  split; [|split; [|split; [|split]]].
  - intros w l Hl. split.
    + pose proof (listed_rows U _ w l OK (proj1 A1) (proj2 A1) Hl) as Hin. rewrite forallb_forall in C0. exact (check_pp P L leL zero ninf tokenize m (w, l) (C0 _ Hin)).
    + intros word Hw. destruct A1. eapply K; eassumption.
  - intros w l Hl word Hw. destruct A2. eapply K; eassumption.
  - intros w l Hl word Hw. destruct A3. eapply K; eassumption.
  - intros w l Hl word Hw. destruct A4. eapply K; eassumption.
  - intros w l Hl word Hw. destruct A5. eapply K; eassumption.
Qed.
