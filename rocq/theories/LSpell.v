(** Proofs about the spelling chosen by the standardizer. *)
From Coq Require Import Ascii String.
From Coq Require Import List NArith ZArith Arith Bool Lia.
From Verif Require Import PyBase Regex MUtils MTree MNgram MLangModel MNormal SNormal SSpell SLangModel LBase SUtils LText LRegex LLangModel LNormal LNormal3.
Import ListNotations.
Local Open Scope nat_scope.

Lemma Forall2_imp {A B} (R S : A -> B -> Prop) l l' : (forall a b, R a b -> S a b) -> Forall2 R l l' -> Forall2 S l l'.
Proof. intros H. induction 1; constructor; auto. Qed.
Definition is_ascii (s : str) : Prop := Forall (fun c => (c < 128)%N) s.

(** ** the pattern matches every decomposition *)
Section Match.
  Context (U : udb) (OK : udb_ok U).
  Notation mrel := (mrel U true).
  Lemma word_mrel s : forall x b a cp, Forall2 (fun c d => cset_match U true (cc c) d = true) s x ->
    mrel (word s) {| bef := b; aft := x ++ a; caps := cp |} {| bef := rev x ++ b; aft := a; caps := cp |}.
  Proof.
    induction s as [|c s IH]; intros x b a cp H; inversion H as [|c' d s' x' Hd Hx]; subst; [constructor|].
    destruct s as [|c2 s].
    - inversion Hx; subst. cbn. apply RChr. exact Hd.
    - change (word (c :: c2 :: s)) with (Seq (Chr (cc c)) (word (c2 :: s))). eapply RSeq; [cbn; apply RChr; exact Hd|]. cbn [rev]. rewrite <- app_assoc. apply IH. exact Hx.
  Qed.
  Lemma alts_mrel l r st st' : In r l -> mrel r st st' -> mrel (alts l) st st'.
  Proof.
    induction l as [|r0 l IH]; intros Hr M; [destruct Hr|]. destruct l as [|r1 l]; [destruct Hr as [->|[]]; exact M|].
    change (alts (r0 :: r1 :: l)) with (Alt r0 (alts (r1 :: l))). destruct Hr as [->|Hr]; [apply RAlt1; exact M|apply RAlt2; apply IH; assumption].
  Qed.
  Lemma star_mrel cs x : forall b a cp, Forall (fun c => cset_match U true cs c = true) x ->
    mrel (Star true (Chr cs)) {| bef := b; aft := x ++ a; caps := cp |} {| bef := rev x ++ b; aft := a; caps := cp |}.
  Proof.
    induction x as [|c x IH]; intros b a cp H; [constructor|]. inversion H; subst. cbn [rev]. rewrite <- app_assoc. eapply RStar1; [cbn; apply RChr; assumption| |apply IH; assumption]. cbn. lia.
  Qed.
  Lemma cset_one lo hi d : cset_match U true {| cs_neg := false; cs_items := [CRange lo hi] |} d = existsb (fun x => (lo <=? x) && (x <=? hi))%N (u_variants U d).
  Proof. unfold cset_match. cbn [cs_neg cs_items existsb citem_match]. rewrite orb_false_r. destruct (existsb _ _); reflexivity. Qed.
  Lemma letter_az c : is_letter c = true -> cset_match U true (cls [az]) c = true.
  Proof.
    intros H. unfold cls, az. rewrite cset_one. apply existsb_exists.
    unfold is_letter, is_upper, is_lower in H. destruct ((97 <=? c) && (c <=? 122))%N eqn:E.
    - exists c. split; [apply (ok_var_self U OK)|exact E].
    - rewrite orb_false_r in H. exists (ascii_swap c). split; [apply (ok_var_swap U OK)|].
      + apply andb_true_iff in H. rewrite !N.leb_le in H. lia.
      + unfold ascii_swap, is_upper. rewrite H. apply andb_true_iff in H. rewrite !N.leb_le in *. apply andb_true_iff. rewrite !N.leb_le. lia.
  Qed.
  Lemma az_letter c : (c < 128)%N -> cset_match U true (cls [az]) c = true -> is_letter c = true.
  Proof.
    intros Hc. unfold cls, az. rewrite cset_one. intros H. apply existsb_exists in H. destruct H as (d & Hd & H). apply andb_true_iff in H. rewrite !N.leb_le in H.
    destruct (ok_var_letter U OK c d Hc Hd) as [->| ->]; [lia| |].
    - unfold is_letter, is_lower. apply orb_true_iff. right. apply andb_true_iff. rewrite !N.leb_le. lia.
    - unfold ascii_swap in H. unfold is_letter. destruct (is_upper c) eqn:E; [reflexivity|]. destruct (is_lower c) eqn:E'; [reflexivity|]. unfold is_lower in E'. apply andb_false_iff in E'. rewrite !N.leb_gt in E'. lia.
  Qed.
  (** equality but for case of ASCII characters, the first one lower case *)
  Lemma ci_lower c d : (d < 128)%N -> is_lower c = true -> cset_match U true (cc c) d = true <-> ascii_lower d = c.
  Proof.
    intros Hd Hc. assert (Hc' : (97 <= c <= 122)%N) by (unfold is_lower in Hc; apply andb_true_iff in Hc; rewrite !N.leb_le in Hc; lia). split; intros H.
    - apply cc_ci in H. destruct (ok_var_letter U OK d c Hd H) as [->| ->]; [lia| |].
      + unfold ascii_lower, is_upper. destruct ((65 <=? d) && (d <=? 90))%N eqn:E; [|reflexivity]. apply andb_true_iff in E. rewrite !N.leb_le in E. lia.
      + unfold ascii_lower, ascii_swap in *. destruct (is_upper d) eqn:E; [reflexivity|]. destruct (is_lower d) eqn:E'; [|reflexivity]. unfold is_lower in E'. apply andb_true_iff in E'. rewrite !N.leb_le in E'. lia.
    - unfold cc. rewrite cset_one. apply existsb_exists. exists c. rewrite !N.leb_refl. split; [|reflexivity].
      unfold ascii_lower in H. destruct (is_upper d) eqn:E; [|subst; apply (ok_var_self U OK)].
      pose proof (ok_var_swap U OK d Hd) as S. unfold ascii_swap in S. rewrite E, H in S. exact S.
  Qed.
  Lemma ci_word s : forall x, is_ascii x -> Forall (fun c => is_lower c = true) s -> Forall2 (fun c d => cset_match U true (cc c) d = true) s x <-> map ascii_lower x = s.
  Proof.
    induction s as [|c s IH]; intros x Hx Hs.
    - split; intros H; [inversion H; reflexivity|destruct x; [constructor|discriminate]].
    - inversion Hs as [|? ? Hc Hs']; subst. split; intros H.
      + inversion H as [|? d ? x' Hd Hx']; subst. inversion Hx; subst. cbn. f_equal; [apply ci_lower; assumption|apply IH; assumption].
      + destruct x as [|d x']; [discriminate|]. inversion Hx; subst. injection H as E1 E2. constructor; [apply ci_lower; assumption|apply IH; assumption].
  Qed.

  Definition low (l : list string) : Prop := Forall (fun s => Forall (fun c => is_lower c = true) (lit s)) l.
  Lemma reads_ci l x : low l -> is_ascii x -> one_of U l x <-> reads x l.
  Proof.
    intros Hl Hx. unfold low in Hl. rewrite Forall_forall in Hl. split; intros (s & Hs & H); exists s; (split; [exact Hs|]).
    - apply (ci_word (lit s) x Hx (Hl s Hs)). refine (Forall2_imp _ _ _ _ _ H). intros c d Hd. unfold cc. rewrite cset_one. apply existsb_exists. exists c. rewrite !N.leb_refl. auto.
    - apply (ci_word (lit s) x Hx (Hl s Hs)) in H. refine (Forall2_imp _ _ _ _ _ H). intros c d Hd. apply cc_ci. exact Hd.
  Qed.
  Lemma split_token_matches token start mid fin middles endings : low middles -> low endings -> is_ascii token ->
    token = start ++ mid ++ fin -> beginning start -> reads mid middles -> reads fin endings -> fullmatch U true (split_pattern (map lit middles) (map lit endings)) token <> None.
  Proof.
    intros Hm He Ha Et [Hl Hs] (sm & Hsm & Em) (sf & Hsf & Ef) F. unfold fullmatch in F.
    assert (A : is_ascii mid /\ is_ascii fin). { subst token. unfold is_ascii in *. apply Forall_app in Ha. destruct Ha as [_ Ha]. apply Forall_app in Ha. exact Ha. } destruct A as [Am Af].
    unfold low in Hm, He. rewrite Forall_forall in Hm, He.
    apply (ci_word (lit sm) mid Am (Hm sm Hsm)) in Em. apply (ci_word (lit sf) fin Af (He sf Hsf)) in Ef.
    assert (G : exists st, mrel (split_pattern (map lit middles) (map lit endings)) {| bef := []; aft := token; caps := [] |} st /\ aft st = []).
    { rewrite <- (app_nil_r fin) in Et. subst token. destruct start as [|c start]; [cbn in Hl; lia|]. inversion Hs; subst. unfold split_pattern. cbn [seqs]. eexists. split; [eapply RSeq; [|eapply RSeq]; apply RGrp|].
      - unfold plus. eapply RSeq; [cbn; apply RChr; apply letter_az; assumption|]. apply star_mrel. eapply Forall_impl; [|eassumption]. intros. apply letter_az. assumption.
      - cbn [bef aft caps]. eapply alts_mrel; [apply in_map; apply in_map; exact Hsm|]. apply word_mrel. exact Em.
      - cbn [bef aft caps]. eapply alts_mrel; [apply in_map; apply in_map; exact Hsf|]. apply word_mrel. exact Ef.
      - reflexivity. }
    destruct G as (st & M & E). pose proof (m_none U true _ _ _ F st M) as K. cbv beta in K. rewrite E in K. discriminate.
  Qed.
  Lemma fullmatch_groups token middles endings st : middles <> [] -> endings <> [] -> fullmatch U true (split_pattern (map lit middles) (map lit endings)) token = Some st ->
    token = Regex.group st 1 ++ Regex.group st 2 ++ Regex.group st 3 /\ Forall (fun c => cset_match U true (cls [az]) c = true) (Regex.group st 1) /\ one_of U middles (Regex.group st 2) /\ one_of U endings (Regex.group st 3).
  Proof.
    intros Hm He E. apply fullmatch_some in E. destruct E as [M Ea]. unfold split_pattern in M. cbn [seqs] in M.
    inversion M as [| |r1 r2 s0 s1 s2 M1 M2| | | | | | | | | | |]; subst. inversion M2 as [| |r1 r2 s0' s2' s3 M3 M4| | | | | | | | | | |]; subst. clear M M2.
    inversion M1 as [| | | | | | |n1 r1 t0 t1 N1| | | | | |]; subst. inversion M3 as [| | | | | | |n2 r2 t0 t2 N2| | | | | |]; subst. inversion M4 as [| | | | | | |n3 r3 t0 t3 N3| | | | | |]; subst.
    assert (C1 : caps t1 = []) by exact (capless_caps _ _ (plus (Chr (cls [az]))) _ _ eq_refl N1). pose proof (capless_caps _ _ _ _ _ (capless_words _) N2) as C2. pose proof (capless_caps _ _ _ _ _ (capless_words _) N3) as C3.
    apply mrel_lang in N1. destruct N1 as (x1 & A1 & B1 & L1). apply mrel_lang in N2. destruct N2 as (x2 & A2 & B2 & L2). apply mrel_lang in N3. destruct N3 as (x3 & A3 & B3 & L3).
    pose proof (consumed_eq _ _ _ B1) as K1. pose proof (consumed_eq _ _ _ B2) as K2. pose proof (consumed_eq _ _ _ B3) as K3. clear B1 B2 B3 M1 M3 M4.
    rewrite K1 in *. rewrite K2 in *. rewrite K3 in *. cbn [aft bef caps] in *.
    unfold Regex.group. cbn [caps dget Nat.eqb]. rewrite C3. cbn [dget Nat.eqb]. rewrite C2. cbn [dget Nat.eqb].
    cbn [aft bef] in *. apply lang_plus_chr in L1.
    split; [rewrite A1, A2, A3, Ea, app_nil_r; reflexivity|]. split; [apply L1|]. split; apply lang_one_of; assumption.
  Qed.
End Match.

(** ** a word is cut in one way *)
Lemma app_len_inj {A} (a b u v : list A) : a ++ u = b ++ v -> length u = length v -> a = b /\ u = v.
Proof.
  revert b. induction a as [|x a IH]; intros [|y b] E H; cbn in E; [auto| | |].
  - subst u. cbn in H. rewrite app_length in H. lia.
  - subst v. cbn in H. rewrite app_length in H. lia.
  - injection E as -> E. destruct (IH b E H) as [-> ->]. auto.
Qed.
Lemma app_suffix {A} (a b u v : list A) : a ++ u = b ++ v -> length u <= length v -> skipn (length v - length u) v = u.
Proof.
  intros E H. rewrite <- (firstn_skipn (length v - length u) v), app_assoc in E. apply app_len_inj in E; [symmetry; apply E|]. rewrite skipn_length. lia.
Qed.
Definition sepb (ms es : list string) : bool :=
  forallb (fun p => forallb (fun q => implb (str_eqb (skipn (length (lit (fst q) ++ lit (snd q)) - length (lit (fst p) ++ lit (snd p))) (lit (fst q) ++ lit (snd q))) (lit (fst p) ++ lit (snd p)))
    (str_eqb (lit (fst p)) (lit (fst q)) && str_eqb (lit (snd p)) (lit (snd q)))) (list_prod ms es)) (list_prod ms es).
Lemma cut_unique ms es (a m f a' m' f' : str) : sepb ms es = true -> a ++ m ++ f = a' ++ m' ++ f' -> reads m ms -> reads f es -> reads m' ms -> reads f' es -> a = a' /\ m = m' /\ f = f'.
Proof.
  intros HS E (m0 & Hm & Em) (f0 & Hf & Ef) (m1 & Hm' & Em') (f1 & Hf' & Ef').
  assert (EL : map ascii_lower a ++ (lit m0 ++ lit f0) = map ascii_lower a' ++ (lit m1 ++ lit f1)) by (rewrite <- Em, <- Ef, <- Em', <- Ef'; unfold str, char in *; rewrite <- !map_app; f_equal; exact E).
  assert (Q : lit m0 = lit m1 /\ lit f0 = lit f1).
  { unfold sepb in HS. rewrite forallb_forall in HS. destruct (le_lt_dec (length (lit m0 ++ lit f0)) (length (lit m1 ++ lit f1))) as [Hl|Hl].
    - pose proof (app_suffix _ _ _ _ EL Hl) as S. specialize (HS (m0, f0) (in_prod _ _ _ _ Hm Hf)). cbv beta in HS. rewrite forallb_forall in HS. specialize (HS (m1, f1) (in_prod _ _ _ _ Hm' Hf')).
      cbn [fst snd] in HS. unfold str, char in *. rewrite S in HS. rewrite str_eqb_refl in HS. cbn in HS. apply andb_true_iff in HS. rewrite !str_eqb_eq in HS. exact HS.
    - symmetry in EL. pose proof (app_suffix _ _ _ _ EL (Nat.lt_le_incl _ _ Hl)) as S. specialize (HS (m1, f1) (in_prod _ _ _ _ Hm' Hf')). cbv beta in HS. rewrite forallb_forall in HS. specialize (HS (m0, f0) (in_prod _ _ _ _ Hm Hf)).
      cbn [fst snd] in HS. unfold str, char in *. rewrite S in HS. rewrite str_eqb_refl in HS. cbn in HS. apply andb_true_iff in HS. rewrite !str_eqb_eq in HS. split; symmetry; apply HS. }
  destruct Q as [Q1 Q2]. assert (Lm : length m = length m') by (apply (f_equal (@length _)) in Em, Em'; rewrite map_length in Em, Em'; unfold str, char in *; rewrite Em, Em', Q1; reflexivity).
  assert (Lf : length f = length f') by (apply (f_equal (@length _)) in Ef, Ef'; rewrite map_length in Ef, Ef'; unfold str, char in *; rewrite Ef, Ef', Q2; reflexivity).
  rewrite !app_assoc in E. apply app_len_inj in E; [|exact Lf]. destruct E as [E ->]. apply app_len_inj in E; [|exact Lm]. destruct E as [-> ->]. auto.
Qed.
(** digraphs *)
Lemma simple_replace a s : N.eqb a 101%N = false -> replace s [a; 101%N] [101%N] = simple a s.
Proof.
  intros Ha. unfold replace. assert (G : forall n s, length s <= n -> replace_fuel n [a; 101%N] [101%N] s = simple a s).
  { clear s. induction n as [|n IH]; intros s H; [destruct s; [reflexivity|cbn in H; lia]|]. destruct s as [|c [|d s]].
    - reflexivity.
    - cbn. destruct (N.eqb a c); [|f_equal; destruct n; reflexivity]. f_equal. destruct n; reflexivity.
    - cbn [replace_fuel strip_prefix simple]. rewrite (N.eqb_sym c a), (N.eqb_sym d 101%N). destruct (N.eqb a c) eqn:Ec; cbn [andb].
      + destruct (N.eqb 101%N d) eqn:Ed.
        * cbn [app]. f_equal. apply IH. cbn in H. lia.
        * f_equal. apply IH. cbn in *. lia.
      + f_equal. apply IH. cbn in *. lia. }
  apply G. lia.
Qed.
Lemma contains_iff sub s : contains sub s = true <-> exists a b, s = a ++ sub ++ b.
Proof.
  assert (P : forall s, startswith s sub = true <-> exists b, s = sub ++ b).
  { intros t. unfold startswith. split.
    - revert t. induction sub as [|x sub IH]; intros t H; [exists t; reflexivity|]. destruct t as [|y t]; [discriminate|]. cbn in H. destruct (N.eqb_spec x y) as [->|]; [|discriminate]. destruct (IH t H) as [b ->]. exists b. reflexivity.
    - intros [b ->]. induction sub as [|x sub IH]; [reflexivity|]. cbn. rewrite N.eqb_refl. exact IH. }
  induction s as [|c s IH]; cbn [contains]; rewrite orb_true_iff, P.
  - split.
    + intros [(b & H)|H]; [exists [], b; exact H|discriminate].
    + intros (a & b & H). left. exists b. destruct a; [exact H|discriminate].
  - rewrite IH. split.
    + intros [(b & H)|(a & b & H)]; [exists [], b; exact H|exists (c :: a), b; rewrite H; reflexivity].
    + intros ([|x a] & b & H); [left; exists b; exact H|right; exists a, b; injection H as _ H; exact H].
Qed.

(** ** the rules *)
Section Rules.
  Context (U : udb) (OK : udb_ok U) (P L : Type) (leL : L -> L -> bool) (zero : P) (ninf : L) (m : lm P L).
  Notation attested := (fun x => lm_contains P L m x = true).
  Notation score := (logp P L zero ninf m).
  Notation best_ngram := (best_ngram P L leL zero ninf m).
  Context (BE : forall args, (forall x, In x args -> lm_contains P L m x = false) /\ best_ngram args = Ok None \/
    exists before x after, args = before ++ x :: after /\ best_ngram args = Ok (Some x) /\ lm_contains P L m x = true /\
      (forall y, In y args -> leL (score y) (score x) = true) /\ (forall y, In y before -> leL (score x) (score y) = false)).
  Notation preferred := (preferred leL attested score).
  Context (token : str) (HA : is_ascii token).
  Notation silent := (silent attested token).
  Definition decided (k : nat) (rule : res (option str)) : Prop :=
    silent k /\ rule = Ok None \/ exists sp r, family token k sp /\ preferred sp r /\ rule = Ok (Some r).
  Lemma chosen sp (F : str -> str) : (forall x, In x sp -> F (fst x) = snd x) ->
    let e := let! best := best_ngram (map fst sp) in match best with Some b => Ok (Some (F b)) | None => Ok None end in
    (forall x, In x sp -> ~ attested (fst x)) /\ e = Ok None \/ exists r, preferred sp r /\ e = Ok (Some r).
  Proof.
    intros HF e. unfold e. destruct (BE (map fst sp)) as [[H ->]|(b & x & a & E & -> & Ha & H1 & H2)]; cbn [rbind].
    - left. split; [|reflexivity]. intros x Hx. rewrite (H (fst x) (in_map _ _ _ Hx)). discriminate.
    - right. apply map_eq_app in E. destruct E as (b' & l & -> & <- & E). apply map_eq_cons in E. destruct E as ([x' r] & a' & -> & <- & <-). cbn [fst] in *. exists r. split.
      + exists b', x', a'. split; [reflexivity|]. split; [exact Ha|]. split; intros y Hy; [apply H1|apply H2]; apply in_map; exact Hy.
      + do 2 f_equal. apply (HF (x', r)). apply in_elt.
  Qed.
  Lemma decide k sp (F : str -> str) : family token k sp -> (forall sp', family token k sp' -> sp' = sp) -> (forall x, In x sp -> F (fst x) = snd x) ->
    decided k (let! best := best_ngram (map fst sp) in match best with Some b => Ok (Some (F b)) | None => Ok None end).
  Proof.
    intros HM HU HF. destruct (chosen sp F HF) as [[H E]|(r & H & E)]; [left|right; eauto]. split; [|exact E]. intros sp' x Hs Hx. rewrite (HU sp' Hs) in Hx. exact (H x Hx).
  Qed.
  (** the cut of a token *)
  Definition cut (ms es : list string) (start mid fin : str) : Prop := token = start ++ mid ++ fin /\ beginning start /\ reads mid ms /\ reads fin es.
  Lemma rule_cut ms es variants finish : ms <> [] -> es <> [] -> low ms -> low es -> sepb ms es = true ->
    (exists start mid fin, cut ms es start mid fin /\ (forall a b c, cut ms es a b c -> a = start /\ b = mid /\ c = fin) /\
       spelling_rule U P L leL zero ninf m token (map lit ms) (map lit es) variants finish =
       let! vs := variants start mid fin in let! best := best_ngram vs in match best with Some b => Ok (Some (finish b fin)) | None => Ok None end) \/
    (forall start mid fin, ~ cut ms es start mid fin) /\ spelling_rule U P L leL zero ninf m token (map lit ms) (map lit es) variants finish = Ok None.
  Proof.
    intros Hm He Lm Le HS.
    assert (UQ : forall a b c a' b' c', cut ms es a b c -> cut ms es a' b' c' -> a' = a /\ b' = b /\ c' = c).
    { intros a b c a' b' c' (E & _ & R1 & R2) (E' & _ & R1' & R2'). apply (cut_unique ms es); congruence. }
    unfold spelling_rule, split_token. destruct (fullmatch U true _ token) as [st|] eqn:E.
    - pose proof (fullmatch_groups U token ms es st Hm He E) as (Et & Hg & Om & Oe).
      assert (AA : is_ascii (Regex.group st 1) /\ is_ascii (Regex.group st 2) /\ is_ascii (Regex.group st 3)).
      { unfold is_ascii in *. rewrite Et in HA. apply Forall_app in HA. destruct HA as [H1 H2]. apply Forall_app in H2. tauto. } destruct AA as (A1 & A2 & A3).
      apply (reads_ci U OK ms _ Lm A2) in Om. apply (reads_ci U OK es _ Le A3) in Oe.
      assert (HL : Forall (fun c => is_letter c = true) (Regex.group st 1)). { unfold is_ascii in A1. rewrite Forall_forall in *. intros c Hc. apply (az_letter U OK); auto. }
      destruct (Nat.ltb_spec 2 (length (Regex.group st 1))) as [Hl|Hl].
      + left. exists (Regex.group st 1), (Regex.group st 2), (Regex.group st 3). assert (C : cut ms es (Regex.group st 1) (Regex.group st 2) (Regex.group st 3)) by (split; [exact Et|split; [split; [exact Hl|exact HL]|split; assumption]]).
        split; [exact C|]. split; [intros a b c Hc; apply (UQ _ _ _ _ _ _ C Hc)|]. rewrite (proj2 (Nat.ltb_lt 1 _)) by lia. rewrite (proj2 (Nat.ltb_lt 2 _)) by exact Hl. reflexivity.
      + right. split.
        * intros a b c (E' & B & R1 & R2). assert (Q : a = Regex.group st 1) by (apply (cut_unique ms es a b c _ _ _ HS (eq_trans (eq_sym E') Et)); assumption). subst a. destruct B as [B _]. lia.
        * destruct (Nat.ltb_spec 1 (length (Regex.group st 1))); [|reflexivity]. rewrite (proj2 (Nat.ltb_ge 2 _)) by exact Hl. reflexivity.
    - right. split; [|reflexivity]. intros a b c (E' & B & R1 & R2). exact (split_token_matches U OK token a b c ms es Lm Le HA E' B R1 R2 E).
  Qed.
  Ltac lows := unfold low; repeat (apply Forall_cons; [repeat (apply Forall_cons; [reflexivity|]); apply Forall_nil|]); apply Forall_nil.
  Ltac cut_with ms es := match goal with |- decided _ (spelling_rule _ _ _ _ _ _ _ _ _ _ ?v ?f) =>
    destruct (rule_cut ms es v f) as [(start & mid & fin & C & UQ & ->)|[N ->]]; [discriminate|discriminate|lows|lows|vm_compute; reflexivity| |] end.
  Lemma color_rule : decided 1 (spelling_rule U P L leL zero ninf m token (lits ["our"; "or"]%string) (lits ["ing"; "ed"; "s"; ""]%string)
       (fun start _ _ => Ok [start ++ lit "or"; start ++ lit "our"]) (fun b fin => b ++ fin)).
  Proof.
    unfold lits. cut_with ["our"; "or"]%string ["ing"; "ed"; "s"; ""]%string.
    - destruct C as (Et & B & R1 & R2). apply (decide 1 [(start ++ lit "or", start ++ lit "or" ++ fin); (start ++ lit "our", start ++ lit "our" ++ fin)] (fun b => b ++ fin)).
      + apply (fam_color token start mid fin); assumption.
      + intros sp' H. inversion H as [s0 m0 f0 E0 B0 R3 R4| | | | | |]; subst sp'. destruct (UQ s0 m0 f0) as (-> & _ & ->); [split; [exact E0|split; [exact B0|split; assumption]]|]. reflexivity.
      + intros x [<-|[<-|[]]]; cbn [fst snd]; rewrite <- app_assoc; reflexivity.
    - left. split; [|reflexivity]. intros sp x H _. exfalso. inversion H as [s0 m0 f0 E0 B0 R3 R4| | | | | |]. apply (N s0 m0 f0). split; [exact E0|split; [exact B0|split; assumption]].
  Qed.
  Lemma catalog_rule : decided 4 (spelling_rule U P L leL zero ninf m token (lits ["og"; "ogue"]%string) (lits ["s"; ""]%string)
       (fun start _ _ => Ok [start ++ lit "og"; start ++ lit "ogue"]) (fun b fin => b ++ fin)).
  Proof.
    unfold lits. cut_with ["og"; "ogue"]%string ["s"; ""]%string.
    - destruct C as (Et & B & R1 & R2). apply (decide 4 [(start ++ lit "og", start ++ lit "og" ++ fin); (start ++ lit "ogue", start ++ lit "ogue" ++ fin)] (fun b => b ++ fin)).
      + apply (fam_catalog token start mid fin); assumption.
      + intros sp' H. inversion H as [| | |s0 m0 f0 E0 B0 R3 R4| | |]; subst sp'. destruct (UQ s0 m0 f0) as (-> & _ & ->); [split; [exact E0|split; [exact B0|split; assumption]]|]. reflexivity.
      + intros x [<-|[<-|[]]]; cbn [fst snd]; rewrite <- app_assoc; reflexivity.
    - left. split; [|reflexivity]. intros sp x H _. exfalso. inversion H as [| | |s0 m0 f0 E0 B0 R3 R4| | |]. apply (N s0 m0 f0). split; [exact E0|split; [exact B0|split; assumption]].
  Qed.
  Lemma travel_rule : decided 5 (spelling_rule U P L leL zero ninf m token (lits ["el"; "ell"]%string) (lits ["ing"; "ers"; "ed"; "er"]%string)
       (fun start _ fin => Ok [start ++ lit "el" ++ fin; start ++ lit "ell" ++ fin]) (fun b _ => b)).
  Proof.
    unfold lits. cut_with ["el"; "ell"]%string ["ing"; "ers"; "ed"; "er"]%string.
    - destruct C as (Et & B & R1 & R2). apply (decide 5 [(start ++ lit "el" ++ fin, start ++ lit "el" ++ fin); (start ++ lit "ell" ++ fin, start ++ lit "ell" ++ fin)] (fun b => b)).
      + apply (fam_travel token start mid fin); assumption.
      + intros sp' H. inversion H as [| | | |s0 m0 f0 E0 B0 R3 R4| |]; subst sp'. destruct (UQ s0 m0 f0) as (-> & _ & ->); [split; [exact E0|split; [exact B0|split; assumption]]|]. reflexivity.
      + intros x [<-|[<-|[]]]; reflexivity.
    - left. split; [|reflexivity]. intros sp x H _. exfalso. inversion H as [| | | |s0 m0 f0 E0 B0 R3 R4| |]. apply (N s0 m0 f0). split; [exact E0|split; [exact B0|split; assumption]].
  Qed.
  (** a single letter *)
  Lemma reads_one z l : reads [z] l -> forall x, reads x l -> low l -> Forall (fun s => String.length s = 1) l -> exists z', x = [z'].
  Proof.
    intros _ x (s & Hs & E) _ H1. rewrite Forall_forall in H1. specialize (H1 s Hs). destruct s as [|c [|d s]]; try discriminate H1. destruct x as [|z' [|y x]]; try discriminate E. eauto.
  Qed.
  Lemma reads_sc x : reads x ["c"; "s"]%string <-> exists z, x = [z] /\ reads [z] ["s"; "c"]%string.
  Proof.
    split.
    - intros (s & Hs & E). assert (Hx : exists z, x = [z]) by (destruct Hs as [<-|[<-|[]]]; destruct x as [|z [|y x]]; try discriminate E; eauto). destruct Hx as (z & ->). exists z. split; [reflexivity|]. exists s. split; [|exact E]. cbn in *. tauto.
    - intros (z & -> & s & Hs & E). exists s. split; [|exact E]. cbn in *. tauto.
  Qed.
  Lemma reads_yz x : reads x ["ys"; "yz"; "is"; "iz"]%string <-> exists c z, x = [c; z] /\ reads [c] ["y"; "i"]%string /\ reads [z] ["z"; "s"]%string.
  Proof.
    split.
    - intros (s & Hs & E). assert (Hx : exists c z, x = [c; z]) by (cbn in Hs; destruct Hs as [<-|[<-|[<-|[<-|[]]]]]; destruct x as [|c [|z [|y x]]]; try discriminate E; eauto). destruct Hx as (c & z & ->). exists c, z. split; [reflexivity|].
      cbn in Hs. cbn [map] in E. destruct Hs as [<-|[<-|[<-|[<-|[]]]]]; injection E as E1 E2; (split; [first [exists "y"%string; split; [cbn; tauto|cbn [map]; rewrite E1; reflexivity]|exists "i"%string; split; [cbn; tauto|cbn [map]; rewrite E1; reflexivity]]
        |first [exists "z"%string; split; [cbn; tauto|cbn [map]; rewrite E2; reflexivity]|exists "s"%string; split; [cbn; tauto|cbn [map]; rewrite E2; reflexivity]]]).
    - intros (c & z & -> & (s & Hs & E) & (s' & Hs' & E')). cbn in Hs, Hs', E, E'. exists (s ++ s')%string. destruct Hs as [<-|[<-|[]]]; destruct Hs' as [<-|[<-|[]]]; injection E as E; injection E' as E'; (split; [cbn; tauto|cbn [map]; rewrite E, E'; reflexivity]).
  Qed.
  Lemma defense_rule : decided 3 (spelling_rule U P L leL zero ninf m token (lits ["c"; "s"]%string) (lits ["ives"; "ive"; "es"; "e"]%string)
       (fun start _ _ => Ok [start ++ lit "se"; start ++ lit "ce"]) (fun b fin => slice None (Some (-1)%Z) b ++ fin)).
  Proof.
    unfold lits. cut_with ["c"; "s"]%string ["ives"; "ive"; "es"; "e"]%string.
    - destruct C as (Et & B & R1 & R2). apply (decide 3 [(start ++ lit "se", start ++ lit "s" ++ fin); (start ++ lit "ce", start ++ lit "c" ++ fin)] (fun b => slice None (Some (-1)%Z) b ++ fin)).
      + apply reads_sc in R1. destruct R1 as (z & -> & R1). apply (fam_defense token start z fin); assumption.
      + intros sp' H. inversion H as [| |s0 z0 f0 E0 B0 R3 R4| | | |]; subst sp'. destruct (UQ s0 [z0] f0) as (-> & _ & ->); [split; [exact E0|split; [exact B0|split; [apply reads_sc; eauto|assumption]]]|]. reflexivity.
      + intros x [<-|[<-|[]]]; cbn [fst snd]; [change (lit "se") with [115%N; 101%N]|change (lit "ce") with [99%N; 101%N]]; rewrite slice1_app2, <- app_assoc; reflexivity.
    - left. split; [|reflexivity]. intros sp x H _. exfalso. inversion H as [| |s0 z0 f0 E0 B0 R3 R4| | | |]. apply (N s0 [z0] f0). split; [exact E0|split; [exact B0|split; [apply reads_sc; eauto|assumption]]].
  Qed.
  Lemma analyze_rule : decided 2 (spelling_rule U P L leL zero ninf m token (lits ["ys"; "yz"; "is"; "iz"]%string) (lits ["ations"; "ation"; "ers"; "er"; "ing"; "ed"; "es"; "e"]%string)
       (fun start mid _ => let! c := index mid 0 in Ok [start ++ [c] ++ lit "ze"; start ++ [c] ++ lit "se"])
       (fun b fin => slice None (Some (-1)%Z) b ++ fin)).
  Proof.
    unfold lits. cut_with ["ys"; "yz"; "is"; "iz"]%string ["ations"; "ation"; "ers"; "er"; "ing"; "ed"; "es"; "e"]%string.
    - destruct C as (Et & B & R1 & R2). apply reads_yz in R1. destruct R1 as (c & z & -> & Rc & Rz). change (index [c; z] 0) with (Ok c). cbn [rbind].
      apply (decide 2 [(start ++ [c] ++ lit "ze", start ++ [c] ++ lit "z" ++ fin); (start ++ [c] ++ lit "se", start ++ [c] ++ lit "s" ++ fin)] (fun b => slice None (Some (-1)%Z) b ++ fin)).
      + apply (fam_analyze token start c z fin); assumption.
      + intros sp' H. inversion H as [|s0 c0 z0 f0 E0 B0 R3 R4 R5| | | | |]; subst sp'. destruct (UQ s0 [c0; z0] f0) as (-> & Em & ->); [split; [exact E0|split; [exact B0|split; [apply reads_yz; eauto|assumption]]]|]. injection Em as -> _. reflexivity.
      + intros x [<-|[<-|[]]]; cbn [fst snd]; [change ([c] ++ lit "ze") with [c; 122%N; 101%N]|change ([c] ++ lit "se") with [c; 115%N; 101%N]]; rewrite slice1_app3, <- app_assoc; reflexivity.
    - left. split; [|reflexivity]. intros sp x H _. exfalso. inversion H as [|s0 c0 z0 f0 E0 B0 R3 R4 R5| | | | |]. apply (N s0 [c0; z0] f0). split; [exact E0|split; [exact B0|split; [apply reads_yz; eauto|assumption]]].
  Qed.
  Lemma ae_rule : decided 6 (digraph_rule P L leL zero ninf m token (lit "ae")).
  Proof.
    unfold digraph_rule. change (lit "ae") with [97%N; 101%N] at 2. change (lit "e") with [101%N]. rewrite simple_replace by reflexivity. destruct (Nat.ltb_spec 4 (length token)) as [Hl|Hl]; cbn [andb].
    - destruct (contains (lit "ae") token) eqn:C.
      + apply contains_iff in C. assert (E : best_ngram [simple 97%N token; token] = let! best := best_ngram (map fst [(simple 97%N token, simple 97%N token); (token, token)]) in match best with Some b => Ok (Some b) | None => Ok None end).
        { cbn [map fst]. destruct (best_ngram _) as [[b|]|e]; reflexivity. } rewrite E. apply (decide 6 _ (fun b => b)).
        * apply fam_ae; assumption.
        * intros sp' H. inversion H; reflexivity.
        * intros x [<-|[<-|[]]]; reflexivity.
      + left. split; [|reflexivity]. intros sp x H _. exfalso. inversion H as [| | | | |H1 H2|]. apply contains_iff in H2. congruence.
    - left. split; [|reflexivity]. intros sp x H _. exfalso. inversion H as [| | | | |H1 H2|]. lia.
  Qed.
  Lemma oe_rule : decided 7 (digraph_rule P L leL zero ninf m token (lit "oe")).
  Proof.
    unfold digraph_rule. change (lit "oe") with [111%N; 101%N] at 2. change (lit "e") with [101%N]. rewrite simple_replace by reflexivity. destruct (Nat.ltb_spec 4 (length token)) as [Hl|Hl]; cbn [andb].
    - destruct (contains (lit "oe") token) eqn:C.
      + apply contains_iff in C. assert (E : best_ngram [simple 111%N token; token] = let! best := best_ngram (map fst [(simple 111%N token, simple 111%N token); (token, token)]) in match best with Some b => Ok (Some b) | None => Ok None end).
        { cbn [map fst]. destruct (best_ngram _) as [[b|]|e]; reflexivity. } rewrite E. apply (decide 7 _ (fun b => b)).
        * apply fam_oe; assumption.
        * intros sp' H. inversion H; reflexivity.
        * intros x [<-|[<-|[]]]; reflexivity.
      + left. split; [|reflexivity]. intros sp x H _. exfalso. inversion H as [| | | | | |H1 H2]. apply contains_iff in H2. congruence.
    - left. split; [|reflexivity]. intros sp x H _. exfalso. inversion H as [| | | | | |H1 H2]. lia.
  Qed.
  Lemma family_range k sp : family token k sp -> 1 <= k <= 7.
  Proof. intros H. inversion H; lia. Qed.
  Notation spelled := (spelled leL attested score token).
  Lemma first_decided rules : forall k, k + length rules = 8 -> (forall j, j < k -> silent j) -> (forall i f, nth_error rules i = Some f -> decided (k + i) (f tt)) ->
    exists r, first_spelling rules token = Ok r /\ spelled r.
  Proof.
    induction rules as [|f rules IH]; intros k Hk Hs Hd.
    - exists token. split; [reflexivity|]. apply spelled_same. intros j. destruct (lt_dec j k) as [H|H]; [apply Hs; exact H|]. intros sp x HF. apply family_range in HF. cbn in Hk. lia.
    - cbn [first_spelling]. pose proof (Hd 0 f eq_refl) as D. rewrite Nat.add_0_r in D. destruct D as [[Sk ->]|(sp & r & HF & HP & ->)]; cbn [rbind].
      + apply (IH (k + 1)).
        * cbn in Hk. lia.
        * intros j Hj. destruct (Nat.eq_dec j k) as [->|]; [exact Sk|apply Hs; lia].
        * intros i g Hg. rewrite <- Nat.add_assoc. apply (Hd (S i) g Hg).
      + exists r. split; [reflexivity|]. apply (spelled_family _ _ _ _ k sp r); assumption.
  Qed.
  Lemma standardized : has_ngram P L zero ninf m token 5 = false -> exists r, standardize U P L leL zero ninf m token = Ok r /\ spelled r.
  Proof.
    intros H. unfold standardize. rewrite H. apply (first_decided _ 1); [reflexivity| |].
    - intros j Hj sp x HF. apply family_range in HF. lia.
    - intros i f. unfold std_rules. destruct i as [|[|[|[|[|[|[|i]]]]]]]; cbn [nth_error]; intros E; try (injection E as <-).
      + exact color_rule.
      + exact analyze_rule.
      + exact defense_rule.
      + exact catalog_rule.
      + exact travel_rule.
      + exact ae_rule.
      + exact oe_rule.
      + destruct i; discriminate.
  Qed.
End Rules.

(** ** one spelling *)
Lemma family_fun token k sp sp' : family token k sp -> family token k sp' -> sp' = sp.
Proof.
  intros H H'. destruct H as [s m f E B R1 R2|s c z f E B R1 R2 R3|s z f E B R1 R2|s m f E B R1 R2|s m f E B R1 R2|H1 H2|H1 H2].
  - inversion H' as [s' m' f' E' B' R1' R2'| | | | | |]. destruct (cut_unique ["our"; "or"]%string ["ing"; "ed"; "s"; ""]%string s m f s' m' f') as (-> & _ & ->); try assumption; try reflexivity. congruence.
  - inversion H' as [|s' c' z' f' E' B' R1' R2' R3'| | | | |]. destruct (cut_unique ["ys"; "yz"; "is"; "iz"]%string ["ations"; "ation"; "ers"; "er"; "ing"; "ed"; "es"; "e"]%string s [c; z] f s' [c'; z'] f') as (-> & Em & ->); try assumption; try (apply reads_yz; eauto); [vm_compute; reflexivity|cbn; cbn in E, E'; congruence|injection Em as -> _; reflexivity].
  - inversion H' as [| |s' z' f' E' B' R1' R2'| | | |]. destruct (cut_unique ["c"; "s"]%string ["ives"; "ive"; "es"; "e"]%string s [z] f s' [z'] f') as (-> & _ & ->); try assumption; try (apply reads_sc; eauto); try reflexivity. congruence.
  - inversion H' as [| | |s' m' f' E' B' R1' R2'| | |]. destruct (cut_unique ["og"; "ogue"]%string ["s"; ""]%string s m f s' m' f') as (-> & _ & ->); try assumption; try reflexivity. congruence.
  - inversion H' as [| | | |s' m' f' E' B' R1' R2'| |]. destruct (cut_unique ["el"; "ell"]%string ["ing"; "ers"; "ed"; "er"]%string s m f s' m' f') as (-> & _ & ->); try assumption; try reflexivity. congruence.
  - inversion H'; reflexivity.
  - inversion H'; reflexivity.
Qed.
Lemma two_cuts {A} (b1 b2 a1 a2 : list A) x y : b1 ++ x :: a1 = b2 ++ y :: a2 -> (b1 = b2 /\ x = y) \/ In x b2 \/ In y b1.
Proof.
  revert b2. induction b1 as [|p b1 IH]; intros [|q b2] E; cbn in E; injection E as E1 E2.
  - auto.
  - subst. right. left. left. reflexivity.
  - subst. right. right. left. reflexivity.
  - subst q. destruct (IH b2 E2) as [[-> ->]|[H|H]]; [auto|right; left; right; exact H|right; right; right; exact H].
Qed.
Lemma preferred_fun {L} (le : L -> L -> bool) att lk sp r r' : preferred le att lk sp r -> preferred le att lk sp r' -> r = r'.
Proof.
  intros (b & x & a & E & _ & H1 & H2) (b' & x' & a' & E' & _ & H1' & H2'). pose proof E as Q. rewrite E' in Q. destruct (two_cuts _ _ _ _ _ _ Q) as [[_ F]|[F|F]].
  - congruence.
  - specialize (H2 _ F). assert (I : In (x, r) sp) by (rewrite E; apply in_elt). specialize (H1' _ I). cbn [fst] in *. assert (I' : In (x', r') sp) by (rewrite E'; apply in_elt). specialize (H1 _ I'). cbn [fst] in *. congruence.
  - specialize (H2' _ F). assert (I' : In (x', r') sp) by (rewrite E'; apply in_elt). specialize (H1 _ I'). assert (I : In (x, r) sp) by (rewrite E; apply in_elt). specialize (H1' _ I). cbn [fst] in *. congruence.
Qed.
Lemma preferred_loud {L} (le : L -> L -> bool) att lk token k sp r : family token k sp -> preferred le att lk sp r -> ~ silent att token k.
Proof. intros HF (b & x & a & -> & Ha & _) S. apply (S _ (x, r) HF (in_elt _ _ _)). exact Ha. Qed.
Lemma spelled_fun {L} (le : L -> L -> bool) att lk token r r' : spelled le att lk token r -> spelled le att lk token r' -> r = r'.
Proof.
  intros [k sp r1 HF HP HS|HS] [k' sp' r2 HF' HP' HS'|HS'].
  - destruct (Nat.lt_trichotomy k k') as [H|[->|H]].
    + exfalso. apply (preferred_loud _ _ _ _ _ _ _ HF HP). apply HS'. exact H.
    + rewrite (family_fun _ _ _ _ HF HF') in HP'. apply (preferred_fun _ _ _ _ _ _ HP HP').
    + exfalso. apply (preferred_loud _ _ _ _ _ _ _ HF' HP'). apply HS. exact H.
  - exfalso. apply (preferred_loud _ _ _ _ _ _ _ HF HP). apply HS'.
  - exfalso. apply (preferred_loud _ _ _ _ _ _ _ HF' HP'). apply HS.
  - reflexivity.
Qed.
