(** Proofs about names with an ampersand: the whole tokenizer. *)
From Coq Require Import Ascii String.
From Coq Require Import List NArith ZArith Arith Bool Lia.
From Verif Require Import PyBase Regex MTokenizer STok SEnglish LBase LText LUdb LRegex LSub LTok LTokWords LAscii LRun LWeb LEnglish LEnglish2 LEnglish3 LEnglish4 LEnglish5 LEnglish6 LEnglish7 LEnglish8 LEnglish9 LEnglish11 LRestore SFirm LFirm LFirm2.
Import ListNotations.
Local Open Scope nat_scope.

Definition SY2 : list char := Eval vm_compute in filter (fun c => negb (c =? 38)%N) symbols.
Definition fch (c : char) : Prop := a_letter c = true \/ c = 32%N \/ c = 38%N.
Lemma fch_sy c : fch c -> ~ In c SY2.
Proof.
  intros [H|[-> | ->]] Hi; [|cbn in Hi; repeat (destruct Hi as [F|Hi]; [discriminate F|]); exact Hi|cbn in Hi; repeat (destruct Hi as [F|Hi]; [discriminate F|]); exact Hi].
  cbn in Hi. repeat (destruct Hi as [<-|Hi]; [discriminate H|]). exact Hi.
Qed.
Lemma must_sub ic r t s : mustb SY2 r = true -> Forall fch s -> sub A ic r t s = s.
Proof. intros Hm Hs. apply (sub_must A ascii_udb_ok ic SY2); [reflexivity|exact Hm|]. intros c Hc. rewrite Forall_forall in Hs. apply fch_sy. auto. Qed.
Lemma must_rules rules s : forallb (fun ru => mustb SY2 (r_pat ru)) rules = true -> Forall fch s -> fold_left (apply_rule A) rules s = s.
Proof.
  intros H Hs. induction rules as [|ru rules IH]; [reflexivity|]. cbn [forallb] in H. apply andb_true_iff in H. destruct H as [H1 H2]. cbn [fold_left]. unfold apply_rule at 2. rewrite must_sub by assumption. apply IH. exact H2.
Qed.
Lemma must_search r s : mustb SY2 r = true -> Forall fch s -> search A true r s = None.
Proof.
  intros Hm Hs. apply search_none. intros x y ->. apply (no_must_match A ascii_udb_ok true SY2); [reflexivity|exact Hm|]. intros c Hc. apply fch_sy. rewrite Forall_forall in Hs. apply Hs. rewrite in_app_iff. auto.
Qed.
Lemma must_protect s : Forall fch s -> protect_text A s = Ok ([], s).
Proof.
  intros Hs. assert (P : forall f r prot i, mustb SY2 r = true -> protect_loop A f r prot i s = Ok (prot, i, s)) by (intros f r prot i Hm; apply loop_none; apply must_search; assumption).
  unfold protect_text, re_protect. cbn [foldM]. rewrite !P by reflexivity. cbn [rbind]. rewrite !P by reflexivity. cbn [rbind]. rewrite !P by reflexivity. cbn [rbind]. rewrite !P by reflexivity. cbn [rbind]. rewrite !P by reflexivity. reflexivity.
Qed.
Definition piece (p : str) : Prop := (letters p /\ ~ is_cannot p) \/ p = [38%N].
Section Text.
  Context (ws : list str) (HW : Forall piece ws).
  Notation t := (join [32%N] ws).
  Lemma piece_ch p c : piece p -> In c p -> fch c.
  Proof. intros [[[_ H] _]| ->] Hc; [left; rewrite Forall_forall in H; auto|destruct Hc as [<-|[]]; right; right; reflexivity]. Qed.
  Lemma piece_word p : piece p -> p <> [] /\ Forall (fun c => u_space A c = false) p.
  Proof. intros [[[Hn H] _]| ->]; [|split; [discriminate|repeat constructor]]. split; [exact Hn|]. eapply Forall_impl; [|exact H]. intros c. apply letter_sp. Qed.
  Lemma t_ch : Forall fch t.
  Proof. apply Forall_forall. intros c Hc. apply join_in in Hc. destruct Hc as [->|(p & Hp & Hc)]; [right; left; reflexivity|]. rewrite Forall_forall in HW. exact (piece_ch p c (HW p Hp) Hc). Qed.
  Lemma t_words : words t = ws.
  Proof. apply split_ws_join; [reflexivity|]. eapply Forall_impl; [|exact HW]. exact piece_word. Qed.
  Lemma alone : forall u v, t = u ++ 38%N :: v -> edge (rev u) /\ edge v.
  Proof.
    induction HW as [|p l Hp Hl IH]; intros u v E; [destruct u; discriminate|].
    assert (J : join [32%N] (p :: l) = p ++ match l with [] => [] | _ => 32%N :: join [32%N] l end) by (destruct l; [symmetry; apply app_nil_r|reflexivity]). rewrite J in E. clear J.
    assert (D : (exists u2, u = p ++ u2 /\ match l with [] => [] | _ => 32%N :: join [32%N] l end = u2 ++ 38%N :: v) \/ (exists q, p = u ++ 38%N :: q /\ v = q ++ match l with [] => [] | _ => 32%N :: join [32%N] l end)).
    { clear - E. revert p E. induction u as [|c u IHu]; intros p E.
      - destruct p as [|d p]; [left; exists []; split; [reflexivity|exact E]|]. injection E as -> E. right. exists p. split; [reflexivity|]. symmetry. exact E.
      - destruct p as [|d p]; [left; exists (c :: u); split; [reflexivity|exact E]|]. injection E as -> E. destruct (IHu p E) as [(u2 & -> & E2)|(q & -> & E2)]; [left; exists u2; split; [reflexivity|exact E2]|right; exists q; split; [reflexivity|exact E2]]. }
    destruct D as [(u2 & -> & E2)|(q & Ep & ->)].
    - destruct l as [|p2 l]; [destruct u2; discriminate|]. destruct u2 as [|c u2]; [discriminate|]. injection E2 as <- E2. destruct (IH Hl u2 v E2) as [I1 I2]. split; [|exact I2]. rewrite rev_app_distr. cbn [rev]. destruct I1 as [-> | (b' & ->)]; right; eexists; reflexivity.
    - destruct Hp as [[[_ Hp] _]|Hp].
      + exfalso. rewrite Ep in Hp. apply Forall_app in Hp. destruct Hp as [_ Hp]. inversion Hp as [|? ? F _]. discriminate F.
      + rewrite Hp in Ep. destruct u as [|c u]; [|destruct u; discriminate]. injection Ep as <-. split; [left; reflexivity|]. destruct l; [left; reflexivity|right; eexists; reflexivity].
  Qed.
  Lemma no_amp k : (k = 4 \/ k = 5) -> apply_rule A t (sg k) = t.
  Proof.
    intros Hk. unfold apply_rule. apply sub_none; [destruct Hk as [-> | ->]; reflexivity|]. intros x y E. destruct (match_at A (r_ic (sg k)) (r_pat (sg k)) (rev x) y) as [st|] eqn:M; [|reflexivity]. exfalso. apply match_at_some in M.
    assert (exists v, y = 38%N :: v /\ (bd (rev x) y = true \/ bd (38%N :: rev x) v = true)) as (v & -> & HB).
    { destruct Hk as [-> | ->]; cbn [sg nth re_segment_off r_pat r_ic mk seqs] in M; apply seq_inv in M; destruct M as (s1 & B1 & M); apply bound_inv in B1; destruct B1 as [-> B1]; apply seq_inv in M; destruct M as (s2 & C & B2); apply chr_inv in C; destruct C as (c & A1 & A2 & _ & Hc);
        apply amp_is in Hc; subst c; apply bound_inv in B2; destruct B2 as [_ B2]; cbn [bef aft] in *; exists (aft s2); (split; [exact A1|]); [left; exact B1|right; rewrite A2 in B2; exact B2]. }
    destruct (alone x v E) as [[E1|(b' & E1)] [-> | (v' & ->)]]; rewrite E1 in HB; destruct HB as [HB|HB]; discriminate HB.
  Qed.
  Lemma no_amp6 : apply_rule A t (sg 6) = t.
  Proof.
    unfold apply_rule. apply sub_none; [reflexivity|]. intros x y E. destruct (match_at A (r_ic (sg 6)) (r_pat (sg 6)) (rev x) y) as [st|] eqn:M; [|reflexivity]. exfalso. apply match_at_some in M.
    cbn [sg nth re_segment_off r_pat r_ic mk seqs] in M. apply seq_inv in M. destruct M as (s1 & G & M). apply grp_inv in G. destruct G as (s2 & G & ->). apply mrel_lang in G. destruct G as (q & A1 & _ & L). apply seq_inv in M. destruct M as (s3 & C & _). apply chr_inv in C. destruct C as (c & A2 & _ & _ & Hc). apply amp_is in Hc. subst c. cbn [aft bef] in *.
    pose proof (nosp_lang false word3 q ltac:(vm_compute; reflexivity) L) as NS. destruct q as [|d q _] using rev_ind; [exact (nullable_lang A false word3 eq_refl L)|].
    apply Forall_app in NS. destruct NS as [_ NS]. inversion NS as [|? ? Hd _]; subst.
    destruct (alone (x ++ q ++ [d]) (aft s3)) as [HE _]; [rewrite E, A2; rewrite <- !app_assoc; reflexivity|]. rewrite !rev_app_distr in HE. cbn [rev app] in HE. destruct HE as [F|(b' & F)]; [discriminate F|]. injection F as -> _. discriminate Hd.
  Qed.
  Lemma no_cannot : apply_rule A t (sg 0) = t.
  Proof.
    unfold apply_rule. apply sub_none; [reflexivity|]. intros x y E. change (r_ic (sg 0)) with true. destruct (match_at A true (r_pat (sg 0)) (rev x) y) as [st|] eqn:M; [|reflexivity]. exfalso. apply cannot_inv in M.
    destruct M as (B1 & can & not & v & -> & C & _ & _ & _ & E3 & _ & B2). rewrite E3 in B2. clear E3. set (q := can ++ not) in *. clearbody q. pose proof (cannot_letters q C) as HQ.
    assert (Hq : q <> []) by (intros ->; discriminate C). pose proof t_ch as TC. rewrite E in TC. rewrite !Forall_app in TC. destruct TC as (T1 & _ & T2).
    assert (E1 : forall x' c, x = x' ++ [c] -> u_space A c = true).
    { intros x' c ->. rewrite Forall_app in T1. destruct T1 as [_ T1]. inversion T1 as [|? ? [F|[-> | ->]] _]; subst; [|reflexivity|].
      - destruct q as [|d q]; [congruence|]. inversion HQ; subst. rewrite rev_app_distr in B1. cbn [rev app] in B1. rewrite bd_in in B1 by assumption. discriminate B1.
      - rewrite <- app_assoc in E. destruct (alone x' (q ++ v) E) as [_ [F|(b' & F)]]; [destruct q; [congruence|discriminate F]|]. destruct q as [|d q]; [congruence|]. injection F as -> _. inversion HQ as [|? ? F _]. discriminate F. }
    assert (E2 : forall c v', v = c :: v' -> u_space A c = true).
    { intros c v' ->. inversion T2 as [|? ? [F|[-> | ->]] _]; subst; [|reflexivity|]; destruct q as [|d q _] using rev_ind; try congruence; apply Forall_app in HQ; destruct HQ as [_ HQ]; inversion HQ as [|? ? Hd _]; subst.
      - rewrite rev_app_distr in B2. cbn [rev app] in B2. rewrite bd_in in B2 by assumption. discriminate B2.
      - rewrite app_assoc in E. destruct (alone _ _ E) as [[F|(b' & F)] _]; rewrite app_assoc, rev_app_distr in F; cbn [rev app] in F; [discriminate F|]. injection F as -> _. discriminate Hd. }
    assert (EW : ws = words x ++ words q ++ words v). { transitivity (words t); [symmetry; exact t_words|]. transitivity (words (x ++ q ++ v)); [f_equal; rewrite E, ?app_assoc; reflexivity|]. etransitivity; [exact (words_app_l A x (q ++ v) E1)|f_equal; exact (words_app_r A q v E2)]. }
    assert (WQ : words q = [q]). { apply split_ws_word; [exact Hq|]. eapply Forall_impl; [|exact HQ]. intros c. apply letter_sp. }
    assert (In q ws) as Hi. { rewrite EW, WQ. apply in_or_app. right. left. reflexivity. }
    rewrite Forall_forall in HW. destruct (HW q Hi) as [[_ N]| ->]; [exact (N C)|discriminate C].
  Qed.
  Lemma seg_same : fold_left (apply_rule A) re_segment_off t = t.
  Proof.
    assert (S : re_segment_off = [sg 0; sg 1; sg 2; sg 3; sg 4; sg 5; sg 6] ++ skipn 7 re_segment_off) by reflexivity. rewrite S, fold_left_app. cbn [fold_left]. pose proof t_ch as TC.
    rewrite no_cannot. assert (M : forall k, mustb SY2 (r_pat (sg k)) = true -> apply_rule A t (sg k) = t) by (intros k Hk; apply must_sub; assumption). rewrite (M 1), (M 2), (M 3) by reflexivity. rewrite (no_amp 4), (no_amp 5), no_amp6 by auto.
    apply must_rules; [vm_compute; reflexivity|exact TC].
  Qed.
  Lemma dots_none : flat_map (split_dots A) ws = ws.
  Proof.
    clear - HW. induction HW as [|p l Hp Hl IH]; [reflexivity|]. cbn [flat_map]. rewrite IH by exact Hl. unfold split_dots. destruct (existsb _ _); [reflexivity|]. destruct (piece_word p Hp) as [H1 H2].
    rewrite must_rules; [|vm_compute; reflexivity|apply Forall_forall; intros c; apply piece_ch; exact Hp]. rewrite split_ws_word by assumption. reflexivity.
  Qed.
End Text.
Lemma pieces_ok i : item_ok i -> Forall piece (pieces i).
Proof.
  assert (C : forall x, upper_case x = true -> piece [x]). { intros x Hx. left. split; [split; [discriminate|constructor; [apply upper_letter; exact Hx|constructor]]|]. intros F. apply is_cannot_len in F. discriminate F. }
  assert (P : piece (lit "&")) by (right; reflexivity). destruct i as [p| |x|x y|x y z|x y z]; cbn [item_ok pieces]; intros H; repeat apply Forall_cons; try apply Forall_nil; try exact P; try (apply C; unfold capital in H; tauto). left. tauto.
Qed.
Lemma firm_pieces is : firm is -> Forall piece (flat_map pieces is).
Proof. induction 1 as [|i rest Ho _ _ IH]; [constructor|]. cbn [flat_map]. apply Forall_app. split; [apply pieces_ok; exact Ho|exact IH]. Qed.
Lemma join_app2 (a b : list str) : a <> [] -> b <> [] -> join [32%N] (a ++ b) = join [32%N] a ++ 32%N :: join [32%N] b.
Proof.
  intros Ha Hb. induction a as [|x a IH]; [congruence|]. destruct a as [|y a]; [destruct b; [congruence|reflexivity]|]. change ((x :: y :: a) ++ b) with (x :: (y :: a) ++ b).
  transitivity (x ++ 32%N :: join [32%N] ((y :: a) ++ b)); [reflexivity|]. rewrite IH by discriminate. transitivity ((x ++ 32%N :: join [32%N] (y :: a)) ++ 32%N :: join [32%N] b); [rewrite <- app_assoc; reflexivity|reflexivity].
Qed.
Lemma join_pieces is : join [32%N] (flat_map pieces is) = join [32%N] (map (gk 0) is).
Proof.
  induction is as [|i rest IH]; [reflexivity|]. cbn [flat_map]. rewrite joink. assert (G : join [32%N] (pieces i) = gk 0 i) by (destruct i; reflexivity). destruct rest as [|j rest]; [cbn [flat_map]; rewrite app_nil_r, G; cbn [tailk]; rewrite app_nil_r; reflexivity|].
  rewrite join_app2; [|destruct i; discriminate|cbn [flat_map]; destruct j; discriminate]. rewrite IH, G. reflexivity.
Qed.
Lemma token_gk i : gk 3 i = token i.
Proof. destruct i; reflexivity. Qed.
Lemma token_word i : item_ok i -> token i <> [] /\ Forall (fun c => u_space A c = false) (token i).
Proof.
  assert (C : forall x, upper_case x = true -> u_space A x = false) by (intros x Hx; apply letter_sp, upper_letter; exact Hx).
  destruct i as [p| |x|x y|x y z|x y z]; cbn [item_ok]; intros H; unfold capital in H; (split; [|]); try discriminate; try (cbn; repeat constructor; apply C; tauto).
  - apply H.
  - eapply Forall_impl; [|apply H]. intros c. apply letter_sp.
Qed.
Section Theorem_.
  Context (U : udb) (OK : udb_ok U).
  Theorem tokenize_firm text is : is <> [] -> firm is -> words_of U text (flat_map pieces is) -> tokenize U text = Ok (map token is).
  Proof.
    intros Hn Hf Hw. pose proof (firm_pieces is Hf) as HP. set (ws := flat_map pieces is) in *. pose proof (t_ch ws HP) as TC.
    assert (LF : forall c, fch c -> low c) by (intros c [H|[-> | ->]]; [apply letter_lt; exact H|reflexivity|reflexivity]).
    assert (S : sanitize U tk_sanitization text = join [32%N] ws). { apply sanitize_words; [exact OK|apply words_of_fun; exact Hw|]. intros c Hc. destruct (words_of_in U text _ c Hw Hc) as [F|(w0 & H1 & H2)]; [auto|]. right. apply LF. rewrite Forall_forall in HP. exact (piece_ch w0 c (HP w0 H1) H2). }
    set (t := join [32%N] ws) in *.
    assert (LT : Forall low t) by (eapply Forall_impl; [|exact TC]; exact LF).
    assert (NT : t <> []). { unfold t, ws. rewrite join_pieces. destruct is as [|i rest]; [congruence|]. rewrite joink. inversion Hf as [|? ? Ho _ _]; subst. destruct i as [p| | | | |]; try discriminate. destruct Ho as ([Hp _] & _). cbn [gk]. destruct p; [congruence|discriminate]. }
    assert (NX : text <> []). { intros ->. apply NT. rewrite <- S. reflexivity. }
    assert (WU : Forall (fun x => x <> [] /\ Forall (fun c => u_space U c = false) x) ws). { rewrite <- (words_of_fun U text _ Hw). apply split_ws_words. }
    assert (S2 : sanitize U tk_sanitization t = t).
    { apply sanitize_words; [exact OK| |intros c Hc; right; rewrite Forall_forall in LT; auto]. apply split_ws_join; [rewrite (ok_space U OK) by reflexivity; reflexivity|exact WU]. }
    assert (E1 : tokenize U text = tokenize U t). { clearbody t. clear - S S2 NT NX. destruct text as [|c0 text]; [congruence|]. destruct t as [|c1 t]; [congruence|]. unfold tokenize. rewrite S, S2. exact eq_refl. }
    rewrite E1, (tokenize_ascii U OK t LT).
    assert (S3 : sanitize A tk_sanitization t = t) by (rewrite <- (proj1 (sanitize_same U OK tk_sanitization t ok_tk_sanitization LT)); exact S2).
    apply (tokenize_steps A t [] t _ NT S3 (must_protect t TC)).
    rewrite (must_rules re_no_split t) by (try exact TC; vm_compute; reflexivity).
    replace (apply_rule A t re_always_split) with t by (symmetry; apply must_sub; [vm_compute; reflexivity|exact TC]).
    assert (TW0 : words t = ws) by exact (t_words ws HP). assert (SG : fold_left (apply_rule A) re_segment_off t = t) by exact (seg_same ws HP).
    rewrite TW0, (dots_none ws HP). change (join [32%N] ws) with t. rewrite SG, TW0. change (join [32%N] ws) with t.
    rewrite (must_rules re_restore t) by (try exact TC; vm_compute; reflexivity).
    rewrite reattach_rules, fold_left_app. cbn [fold_left]. unfold t, ws. rewrite join_pieces. rewrite (rule_k 0), (rule_k 1), (rule_k 2) by (lia || exact Hf).
    assert (M : map (gk 3) is = map token is) by (apply map_ext; exact token_gk). rewrite M.
    assert (TW : Forall (fun x => x <> [] /\ Forall (fun c => u_space A c = false) x) (map token is)). { clear - Hf. induction Hf as [|i rest Ho _ _ IH]; [constructor|]. constructor; [apply token_word; exact Ho|exact IH]. }
    assert (TF : Forall fch (join [32%N] (map token is))).
    { apply Forall_forall. intros c Hc. apply join_in in Hc. destruct Hc as [->|(p & Hp & Hc)]; [right; left; reflexivity|]. apply in_map_iff in Hp. destruct Hp as (i & <- & Hi). assert (Ho : item_ok i). { clear - Hf Hi. induction Hf; [contradiction|]. destruct Hi as [<-|Hi]; auto. }
      assert (In c (concat (pieces i))) as Hc2. { destruct i; cbn in Hc |- *; try tauto. rewrite app_nil_r. exact Hc. } apply in_concat in Hc2. destruct Hc2 as (p & Hp & Hcp). pose proof (pieces_ok i Ho) as PO. rewrite Forall_forall in PO. exact (piece_ch p c (PO p Hp) Hcp). }
    replace (apply_rule A (join [32%N] (map token is)) (ra 3)) with (join [32%N] (map token is)) by (symmetry; apply must_sub; [vm_compute; reflexivity|exact TF]).
    unfold restores. cbn [fold_left]. apply split_ws_join; [reflexivity|exact TW].
  Qed.
End Theorem_.
