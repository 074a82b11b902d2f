(** Proofs about the tokenizer on ordinary English text: which full stops stay, and the list of tokens. *)
From Coq Require Import Ascii String.
From Coq Require Import List NArith ZArith Arith Bool Lia.
From Verif Require Import PyBase Regex MTokenizer STok SEnglish LBase LUdb LRegex LSub LTok LTokWords LAscii LRun LEnglish LEnglish2 LEnglish3 LEnglish4 LEnglish5 LEnglish6 LEnglish7 LEnglish8 LEnglish9.
Import ListNotations.
Local Open Scope nat_scope.

Definition toM (w : eword) : mw := MC (e_core w) (match e_mark w with Some m => TMark m | None => TNone end).
Lemma toM_str w : mstr (toM w) = written w.
Proof. destruct w as [c [m|]]; reflexivity. Qed.
Lemma english_A ws : english ws -> okn (map toM ws).
Proof.
  induction 1 as [|c ws Hc Hw IH|c m ws Hc Hm Hw IH|c ws Hc [_ Hs] Hw IH]; cbn [map]; constructor; try exact IH; (split; [exact Hc|]); (split; [|]).
  - exact I.
  - discriminate.
  - cbn in Hm |- *. tauto.
  - intros E. injection E as ->. cbn in Hm. repeat destruct Hm as [Hm|Hm]; try discriminate Hm; contradiction.
  - cbn. tauto.
  - intros _. destruct ws as [|[[p|n|p c2|q p|key] [m0|]] ws]; cbn [map toM e_core e_mark]; auto.
Qed.
(** *** the next word's first character does not change *)
Lemma hd_core c t u : core_ok c -> hd_error (mstr (MC c t)) = hd_error (mstr (MC c u)).
Proof. intros Hc. destruct (core_head c Hc) as (d & r & E & _). cbn [mstr]. rewrite E. reflexivity. Qed.
Lemma nextc_mapn f xs : okn xs -> (forall x ys, exists t, match x with MC c _ => f x ys = MC c t | _ => f x ys = x end) -> nextc (mapn f xs) = nextc xs.
Proof.
  intros H F. destruct H as [|x xs Hx Ho]; [reflexivity|]. cbn [mapn nextc]. destruct (F x xs) as [t E]. destruct x as [c u|s]; rewrite E; [|reflexivity]. pose proof (hd_core c t u (proj1 Hx)) as F0. destruct c; try exact F0. reflexivity.
Qed.
Lemma fdot_core k x ys : exists t, match x with MC c _ => fdot k x ys = MC c t | _ => fdot k x ys = x end.
Proof. destruct x as [c [|m|]|s]; cbn [fdot]; try (eexists; reflexivity); [|exists TNone; reflexivity]. destruct (_ && _); eexists; reflexivity. Qed.
Lemma nextc_toM ws : nextc (map toM ws) = next_char ws.
Proof. destruct ws as [|[[p|n|p c|q p|key] [m|]] ws]; reflexivity. Qed.

(** *** the marks after the rules for full stops *)
Definition lowdig (d : char) : bool := lower_case d || a_digit d.
Definition kept1 (next : option char) : bool := match next with Some d => lowdig d | None => false end.
Definition kept2 (c : core) (next : option char) : bool := kept1 next || match next with Some d => a_letter d && abbreviated c | None => false end.
Definition tmark (m : option char) (k : bool) : tl := match m with None => TNone | Some m => if (m =? 46)%N && k then TKept else TMark m end.
Definition dots1 (xs : list mw) : list mw := mapn (fdot keep3) (mapn (fdot keep1) xs).
Fixpoint marks1 (ws : list eword) : list mw := match ws with [] => [] | w :: rest => MC (e_core w) (tmark (e_mark w) (kept1 (next_char rest))) :: marks1 rest end.
Fixpoint marks2 (ws : list eword) : list mw := match ws with [] => [] | w :: rest => MC (e_core w) (tmark (e_mark w) (kept2 (e_core w) (next_char rest))) :: marks2 rest end.
Lemma dots1_marks ws : english ws -> dots1 (map toM ws) = marks1 ws.
Proof.
  intros H. pose proof (english_A ws H) as HA. clear H. induction ws as [|[c m] ws IH]; [reflexivity|]. inversion HA as [|x xs Hx Ho]; subst. unfold dots1 in *. cbn [map mapn marks1]. f_equal; [|exact (IH Ho)].
  cbn [toM e_core e_mark tmark]. destruct m as [m|]; [|reflexivity]. cbn [fdot].
  assert (K1 : keep1 (map toM ws) = match next_char ws with Some d => lower_case d | None => false end) by (unfold keep1; rewrite nextc_toM; reflexivity).
  assert (K3 : keep3 (mapn (fdot keep1) (map toM ws)) = match next_char ws with Some d => a_digit d | None => false end) by (unfold keep3; rewrite nextc_mapn; [rewrite nextc_toM; reflexivity|exact Ho|apply fdot_core]).
  change (toM {| e_core := c; e_mark := Some m |}) with (MC c (TMark m)). unfold fdot at 2. rewrite K1. unfold tmark, kept1. destruct (m =? 46)%N eqn:Em; cbn [andb]; [|cbn [fdot]; rewrite Em; reflexivity]. destruct (next_char ws) as [d|] eqn:En; [|cbn [fdot]; rewrite K3, andb_false_r; reflexivity].
  unfold lowdig. destruct (lower_case d); [reflexivity|]. cbn [fdot orb]. rewrite Em, K3. destruct (a_digit d); reflexivity.
Qed.
Lemma nextc_marks1 ws : Forall (fun w => core_ok (e_core w)) ws -> nextc (marks1 ws) = next_char ws.
Proof. destruct ws as [|w ws]; [reflexivity|]. intros H. inversion H as [|? ? Hc _]; subst. rewrite <- nextc_toM. cbn [marks1 map nextc]. pose proof (fun t u => hd_core (e_core w) t u Hc) as F. unfold toM. destruct (e_core w); try apply F. reflexivity. Qed.
Lemma english_cores ws : english ws -> Forall (fun w => core_ok (e_core w)) ws.
Proof. induction 1; constructor; assumption. Qed.
Lemma dots_B ws : english ws -> LRun.okn okB (marks1 ws).
Proof.
  intros H. assert (HA : okn (marks1 ws)) by (rewrite <- (dots1_marks ws H); apply dot_ok, dot_ok, english_A; exact H).
  induction H as [|c ws Hc Hw IH|c m ws Hc Hm Hw IH|c ws Hc [Hs _] Hw IH]; cbn [marks1 e_core e_mark] in *; [constructor| | |]; inversion HA as [|x xs Hx Ho]; subst; (constructor; [|exact (IH Ho)]); (split; [exact Hx|]); cbn [tmark].
  - destruct c; exact I.
  - destruct c; try exact I. destruct (_ && _); [exact I|]. intros ->. cbn in Hm. repeat destruct Hm as [Hm|Hm]; try discriminate Hm; contradiction.
  - destruct c as [p|n|p c|q p|key]; try exact I. destruct (_ && _); [exact I|]. intros _. unfold keepa. rewrite nextc_marks1 by (apply english_cores; exact Hw). unfold dot_kept in Hs. destruct (next_char ws) as [d|]; [|reflexivity]. apply orb_false_iff in Hs. destruct Hs as [_ Hs]. apply orb_false_iff in Hs. destruct Hs as [_ Hs]. rewrite Hs. apply andb_false_r.
Qed.
Lemma abbr_marks ws : Forall (fun w => core_ok (e_core w)) ws -> mapn fabbr (marks1 ws) = marks2 ws.
Proof.
  induction 1 as [|[c m] ws Hc Hw IH]; [reflexivity|]. cbn [marks1 marks2 mapn e_core e_mark] in *. f_equal; [|exact IH]. unfold tmark. destruct m as [m|]; [|reflexivity]. unfold kept2. destruct (m =? 46)%N eqn:Em; cbn [andb].
  - destruct (kept1 (next_char ws)); cbn [orb]; [reflexivity|]. cbn [fabbr]. rewrite Em. unfold keepa. rewrite nextc_marks1 by exact Hw. cbn [andb]. destruct (next_char ws) as [d|]; [|reflexivity]. destruct (a_letter d && abbreviated c); reflexivity.
  - cbn [fabbr]. rewrite Em. reflexivity.
Qed.
Lemma marks2_ok ws : english ws -> Forall ok1 (marks2 ws).
Proof.
  induction 1 as [|c ws Hc Hw IH|c m ws Hc Hm Hw IH|c ws Hc [Hs _] Hw IH]; cbn [marks2 e_core e_mark tmark]; constructor; try exact IH; (split; [|exact I]); (split; [exact Hc|]).
  - split; [exact I|]. destruct c; exact I.
  - assert (Em : (m =? 46)%N = false) by (cbn in Hm; repeat destruct Hm as [<-|Hm]; try reflexivity; contradiction). rewrite Em. cbn [andb]. split; [cbn in Hm |- *; tauto|]. destruct c; try exact I. intros ->. discriminate Em.
  - cbn [N.eqb Pos.eqb andb]. destruct (kept2 c (next_char ws)) eqn:K.
    + split; [exact I|]. destruct c as [p|n|p c|q p|key]; [exact I|exact Hs| |exact I|exact I]. unfold dot_kept in Hs. apply orb_false_iff in Hs. destruct Hs as [_ Hs]. unfold kept2, kept1 in K. destruct (next_char ws) as [d|]; [|discriminate K]. apply orb_false_iff in Hs. destruct Hs as [Hu Ha]. rewrite Ha, andb_false_r, orb_false_r in K. apply negb_false_iff in Hu. unfold lowdig, lower_case, a_digit in K. unfold upper_case in Hu. apply andb_true_iff in Hu. destruct Hu as [U1 U2]. apply N.leb_le in U1, U2. apply orb_true_iff in K. destruct K as [K|K]; apply andb_true_iff in K; destruct K as [K1 K2]; apply N.leb_le in K1, K2; lia.
    + split; [cbn; tauto|]. destruct c as [p|n|p c|q p|key]; try exact I. intros _. exact Hs.
Qed.
Lemma nosplit_rules : re_no_split = [ns 0; ns 1; ns 2; ns 3; ns 4; ns 5; ns 6] ++ [ns 7; ns 8; ns 9; ns 10].
Proof. vm_compute. reflexivity. Qed.
Lemma no_split_words ws : english ws -> words (fold_left (apply_rule A) re_no_split (join [32%N] (map written ws))) = map mstr (marks2 ws).
Proof.
  intros H. pose proof (english_A ws H) as HA. assert (E : map written ws = map mstr (map toM ws)) by (rewrite map_map; apply map_ext; intros w; symmetry; apply toM_str). rewrite E.
  rewrite nosplit_rules, fold_left_app. rewrite !(fold_cons (apply_rule A) (ns 0)), (fold_cons (apply_rule A) (ns 1)), (fold_cons (apply_rule A) (ns 2)), (fold_cons (apply_rule A) (ns 3)), (fold_cons (apply_rule A) (ns 4)), (fold_cons (apply_rule A) (ns 5)), (fold_cons (apply_rule A) (ns 6)), (fold_nil (apply_rule A)).
  rewrite (rule_dot1 _ HA). pose proof (dot_ok keep1 _ HA) as H1. rewrite (rule_dot2 _ H1), (rule_dot3 _ H1). fold (dots1 (map toM ws)). rewrite (dots1_marks ws H). rewrite (rule_abbr _ (dots_B ws H)). rewrite (abbr_marks ws (english_cores ws H)).
  pose proof (marks2_ok ws H) as O. assert (HB : Forall base (marks2 ws)) by (eapply Forall_impl; [|exact O]; intros x [Hx _]; exact Hx).
  pose proof (words_join _ HB) as W. rewrite (must_base [34%N] (ns 4) _ (marks2 ws)) by (try reflexivity; try exact W; try exact HB; vm_compute; reflexivity).
  pose proof (rule_feet _ _ W HB) as W5. rewrite (must_base [34%N] (ns 6) _ (marks2 ws)) by (try reflexivity; try exact W5; try exact HB; vm_compute; reflexivity).
  rewrite (must_id [61%N] [ns 7; ns 8; ns 9; ns 10] _ (marks2 ws) base); [exact W5|reflexivity|reflexivity|reflexivity|exact W5|exact HB|].
  intros x c Hx Hc [<-|[]]. pose proof (base_wch x Hx) as V. rewrite Forall_forall in V. specialize (V _ Hc). discriminate V.
Qed.

(** *** the tokens *)
Lemma Fall_app xs ys : Fall (xs ++ ys) = Fall xs ++ Fall ys.
Proof. unfold Fall, Fseg. rewrite !flat_map_app. reflexivity. Qed.
Lemma kept_dot c next : core_ok c -> (forall d, next = Some d -> a_letter d || a_digit d = true) -> dot_kept c next = initial c || kept2 c next.
Proof.
  intros Hc Hd. unfold dot_kept, kept2, kept1. f_equal. destruct next as [d|]; [|reflexivity]. specialize (Hd d eq_refl). unfold lowdig, a_letter. unfold a_letter in Hd.
  assert (X : upper_case d = true -> lower_case d = false /\ a_digit d = false). { unfold upper_case, lower_case, a_digit. rewrite !andb_true_iff, !andb_false_iff, !N.leb_le, !N.leb_gt. lia. }
  destruct (upper_case d) eqn:Eu; cbn [negb orb andb].
  - destruct (X eq_refl) as [-> ->]. cbn. reflexivity.
  - cbn [orb] in Hd. destruct (lower_case d) eqn:El; cbn [orb] in *; [reflexivity|]. rewrite Hd. reflexivity.
Qed.
Lemma cannot_dec p : (if list_eq_dec N.eq_dec (map uncapital p) (lit "cannot") then true else false) = cannotb p.
Proof. reflexivity. Qed.
Lemma Fall_none c : map mstr (Fall [MC c TNone]) = core_tokens c.
Proof.
  destruct c as [p|n|p c|q p|key]; cbn; rewrite ?app_nil_r; try reflexivity. unfold split_can, cannotb. destruct (list_eq_dec N.eq_dec (map uncapital p) _); cbn; rewrite ?app_nil_r; reflexivity.
Qed.
Lemma Fall_sym s : map mstr (Fall [MSym s]) = [s].
Proof. reflexivity. Qed.
Lemma Fall_mark c m : In m [33; 63; 59]%N -> map mstr (Fall [MC c (TMark m)]) = core_tokens c ++ [[m]].
Proof.
  intros Hm. replace (core_tokens c ++ [[m]]) with (map mstr (Fall ([MC c TNone] ++ [MSym [m]]))) by (rewrite Fall_app, map_app, Fall_none; reflexivity). f_equal. unfold Fall. f_equal. f_equal. f_equal. cbn in Hm. destruct Hm as [<-|[<-|[<-|[]]]]; reflexivity.
Qed.
Lemma Fall_stop c : initial c = false -> map mstr (Fall [MC c (TMark 46%N)]) = core_tokens c ++ [[46%N]].
Proof.
  intros Hi. replace (core_tokens c ++ [[46%N]]) with (map mstr (Fall ([MC c TNone] ++ [MSym [46%N]]))) by (rewrite Fall_app, map_app, Fall_none; reflexivity). f_equal. unfold Fall. f_equal. f_equal. cbn. rewrite Hi. reflexivity.
Qed.
Lemma Fall_initial c : initial c = true -> map mstr (Fall [MC c (TMark 46%N)]) = [ctext c ++ [46%N]].
Proof. destruct c as [[|a [|b p]]|n|p c|q p|key]; try discriminate. intros _. assert (E : cannotb [a] = false) by (unfold cannotb; destruct (list_eq_dec _ _ _) as [F|F]; [discriminate F|reflexivity]). unfold Fall, Fseg, Falways, Fstop. cbn [flat_map existsb N.eqb Pos.eqb orb andb initial negb app Fcan]. unfold split_can. rewrite E. reflexivity. Qed.
Lemma Fall_comma c : map mstr (Fall [MC c (TMark 44%N)]) = core_tokens c ++ [[44%N]].
Proof.
  destruct c as [p|n|p c|q p|key]; cbn; rewrite ?app_nil_r; try reflexivity. unfold split_can, cannotb. destruct (list_eq_dec N.eq_dec (map uncapital p) _); cbn; rewrite ?app_nil_r; reflexivity.
Qed.
Lemma Fall_colon c : map mstr (Fall [MC c (TMark 58%N)]) = core_tokens c ++ [[58%N]].
Proof.
  destruct c as [p|n|p c|q p|key]; cbn; rewrite ?app_nil_r; try reflexivity. unfold split_can, cannotb. destruct (list_eq_dec N.eq_dec (map uncapital p) _); cbn; rewrite ?app_nil_r; reflexivity.
Qed.
Lemma Fall_kept c : (forall p d, c <> Short p d) -> map mstr (Fall [MC c TKept]) = [ctext c ++ [46%N]].
Proof.
  destruct c as [p|n|p c|q p|key]; intros H; [| |destruct (H p c eq_refl)|reflexivity|reflexivity]; cbn; [|reflexivity]. unfold split_can. rewrite andb_false_r. reflexivity.
Qed.
Lemma next_an ws d : english ws -> next_char ws = Some d -> a_letter d || a_digit d = true.
Proof.
  intros H. apply english_cores in H. destruct H as [|[c m] ws Hc _]; [discriminate|]. cbn [e_core] in *. destruct (core_head c Hc) as (d0 & r & E & Hd). pose proof (core_no95 c Hc) as N95.
  assert (G : (forall k, c <> Web k) -> hd_error (ctext c ++ match m with Some x => [x] | None => [] end) = Some d -> a_letter d || a_digit d = true).
  { intros HW. specialize (N95 HW). rewrite E. intros F. injection F as <-. unfold an in Hd. apply orb_true_iff in Hd. destruct Hd as [Hd|Hd]; [exact Hd|]. apply N.eqb_eq in Hd. subst d0. exfalso. apply N95. rewrite E. left. reflexivity. }
  cbn [next_char]. unfold written. cbn [e_core e_mark]. destruct c; try (apply G; discriminate). discriminate.
Qed.
Lemma english_stop_tokens c ws : english ws -> core_ok c -> stop_ok c ws -> map mstr (Fall [MC c (tmark (Some 46%N) (kept2 c (next_char ws)))]) = word_tokens (EWord c (Some 46%N)) (next_char ws).
Proof.
  intros Hw Hc [Hs _]. unfold word_tokens. cbn [e_mark e_core]. rewrite (kept_dot c (next_char ws) Hc) by (intros d; apply next_an; exact Hw). cbn [tmark N.eqb Pos.eqb andb]. unfold written. cbn [e_core e_mark]. destruct (kept2 c (next_char ws)) eqn:K.
  - rewrite orb_true_r. apply Fall_kept. intros p d ->. cbv iota in Hs. rewrite (kept_dot (Short p d) (next_char ws) Hc) in Hs by (intros x; apply next_an; exact Hw). rewrite K, orb_true_r in Hs. discriminate.
  - rewrite orb_false_r. destruct (initial c) eqn:Ei; [apply Fall_initial|apply Fall_stop]; exact Ei.
Qed.
Lemma Fall_tokens ws : english ws -> map mstr (Fall (marks2 ws)) = english_tokens ws.
Proof.
  induction 1 as [|c ws Hc Hw IH|c m ws Hc Hm Hw IH|c ws Hc Hs Hw IH]; [reflexivity| | |]; cbn [marks2 english_tokens]; match goal with |- map mstr (Fall (?x :: ?l)) = _ => change (x :: l) with ([x] ++ l) end; rewrite Fall_app, map_app, IH; f_equal; cbn [e_core e_mark].
  - apply Fall_none.
  - assert (Em : (m =? 46)%N = false) by (cbn in Hm; repeat destruct Hm as [<-|Hm]; try reflexivity; contradiction). unfold word_tokens. cbn [tmark e_mark e_core]. rewrite Em. cbn [andb]. cbn in Hm. destruct Hm as [<-|[<-|[<-|[<-|[<-|[]]]]]]; [apply Fall_comma|apply Fall_mark; cbn; tauto|apply Fall_mark; cbn; tauto|apply Fall_mark; cbn; tauto|apply Fall_colon].
  - apply english_stop_tokens; assumption.
Qed.
(** *** the rules after the protected parts are taken out *)
Lemma rules_tokens ws : english ws ->
  words (fold_left (apply_rule A) re_reattach (fold_left (apply_rule A) re_restore (join [32%N] (words (fold_left (apply_rule A) re_segment_off
    (join [32%N] (flat_map (split_dots A) (words (apply_rule A (fold_left (apply_rule A) re_no_split (join [32%N] (map written ws))) re_always_split)))))))) ) = english_tokens ws.
Proof. intros H. rewrite (after_protect _ (marks2 ws) (no_split_words ws H) (marks2_ok ws H)). apply Fall_tokens. exact H. Qed.
