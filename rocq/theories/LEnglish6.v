(** Proofs about the tokenizer on ordinary English text: the rules that segment words. *)
From Coq Require Import Ascii String.
From Coq Require Import List NArith ZArith Arith Bool Lia.
From Verif Require Import PyBase Regex MTokenizer STok SEnglish LBase LUdb LRegex LSub LTok LTokWords LRun LEnglish LEnglish2 LEnglish3 LEnglish4 LEnglish5.
Import ListNotations.
Local Open Scope nat_scope.

Definition ok3 (x : mw) : Prop := base x /\ match x with MC c (TMark m) => In m [44; 58]%N \/ (m = 46%N /\ initial c = true) | MC _ _ => True | MSym s => In s [[33]; [63]; [59]; [46]]%N end.
Lemma stops_ok xs : Forall ok2 xs -> Forall ok3 (flat_map Fstop xs).
Proof.
  induction 1 as [|x xs [Hx Hm] _ IH]; [constructor|]. cbn [flat_map]. apply Forall_app. split; [|exact IH]. destruct x as [c t|s].
  - destruct t as [|m0|]; [constructor; [split; [exact Hx|exact I]|constructor]| |constructor; [split; [exact Hx|exact I]|constructor]]. cbn [Fstop]. destruct (_ && _) eqn:E.
    + destruct Hx as (Hc & _). constructor; [|constructor; [|constructor]]; (split; [|cbn; auto]).
      * split; [exact Hc|]. split; [exact I|]. destruct c; exact I.
      * vm_compute. tauto.
    + constructor; [|constructor]. split; [exact Hx|]. destruct Hm as [<-|[<-|[<-|[]]]]; [left; left; reflexivity|left; right; left; reflexivity|]. right. split; [reflexivity|]. cbn in E. destruct (initial c); [reflexivity|discriminate E].
  - constructor; [|constructor]. split; [exact Hx|]. cbn. destruct Hm as [<-|[<-|[<-|[]]]]; auto.
Qed.

(** *** cannot *)
Notation rca := (r_pat (sg 0)).
Notation tca := (r_rep (sg 0)).
Notation src := (sr A true rca tca).
Lemma HNc : nullable rca = false.
Proof. reflexivity. Qed.
Lemma cannot_inv b a st : match_at A true rca b a = Some st ->
  at_word_boundary A b a = true /\ exists can not y, a = (can ++ not) ++ y /\ is_cannot (can ++ not) /\ length can = 3 /\ Regex.group st 1 = can /\ Regex.group st 2 = not /\
    bef st = rev (can ++ not) ++ b /\ aft st = y /\ at_word_boundary A (bef st) y = true.
Proof.
  intros M. apply match_at_some in M. cbn [sg nth re_segment_off r_pat mk seqs] in M.
  apply seq_inv in M. destruct M as (s1 & B1 & M). apply bound_inv in B1. destruct B1 as [-> E1]. apply seq_inv in M. destruct M as (s2 & G1 & M). apply grp_inv in G1. destruct G1 as (s3 & W1 & ->).
  apply seq_inv in M. destruct M as (s5 & G2 & B2). apply grp_inv in G2. destruct G2 as (s4 & W2 & ->). apply bound_inv in B2. destruct B2 as [-> E2]. cbn [bef aft] in E1, E2. split; [exact E1|].
  pose proof (word_caps _ _ _ _ _ W2) as K2. apply mrel_lang in W1. destruct W1 as (can & A1 & B1 & L1). apply mrel_lang in W2. destruct W2 as (not & A2 & B2 & L2). cbn [aft bef caps] in *. subst a.
  apply word_uncap in L1; [|reflexivity]. apply word_uncap in L2; [|reflexivity].
  assert (C : is_cannot (can ++ not)) by (unfold is_cannot; rewrite map_app; transitivity (lit "can" ++ lit "not"); [f_equal; assumption|reflexivity]).
  exists can, not, (aft s4). split; [rewrite A2, app_assoc; reflexivity|]. split; [exact C|]. split; [apply (f_equal (@length char)) in L1; rewrite map_length in L1; exact L1|].
  split; [unfold Regex.group; cbn [caps dget Nat.eqb]; rewrite K2; cbn [caps dget Nat.eqb]; apply consumed_eq; exact B1|]. split; [unfold Regex.group; cbn [caps dget Nat.eqb]; apply consumed_eq; exact B2|]. split; [rewrite B2, B1, rev_app_distr, app_assoc; reflexivity|]. split; [reflexivity|exact E2].
Qed.
Lemma cannot_letters p : is_cannot p -> Forall (fun c => a_letter c = true) p.
Proof. intros H. apply (uncap_letters p _ H). reflexivity. Qed.
Lemma cannot_found b w0 y : sfirst b -> is_cannot w0 -> (forall c y', y = c :: y' -> u_word A c = false) -> match_at A true rca b (w0 ++ y) <> None.
Proof.
  intros Hb C Hy F. pose proof (cannot_letters w0 C) as CL0. destruct w0 as [|c1 [|c2 [|c3 [|c4 [|c5 [|c6 [|]]]]]]]; try discriminate C. set (can := [c1; c2; c3]). set (not := [c4; c5; c6]).
  unfold is_cannot in C. cbn [map] in C. injection C as C1 C2 C3 C4 C5 C6.
  assert (L1 : lang A true (Regex.w "can") can) by (apply (proj2 (word_uncap (lit "can") can eq_refl)); unfold can; cbn [map]; rewrite C1, C2, C3; reflexivity).
  assert (L2 : lang A true (Regex.w "not") not) by (apply (proj2 (word_uncap (lit "not") not eq_refl)); unfold not; cbn [map]; rewrite C4, C5, C6; reflexivity).
  destruct (lang_mrel A true (Regex.w "can") eq_refl _ L1 b (not ++ y) []) as (cp1 & R1).
  destruct (lang_mrel A true (Regex.w "not") eq_refl _ L2 (rev can ++ b) y ((1, consumed {| bef := b; aft := can ++ not ++ y; caps := [] |} {| bef := rev can ++ b; aft := not ++ y; caps := cp1 |}) :: cp1)) as (cp2 & R2).
  rewrite Forall_forall in CL0. assert (W1 : u_word A c1 = true) by (apply letter_word, CL0; cbn; auto). assert (W6 : u_word A c6 = true) by (apply letter_word, CL0; cbn; tauto).
  refine (match_at_none _ _ _ _ _ F _ _). cbn [sg nth re_segment_off r_pat mk seqs].
  eapply RSeq; [apply RBound|eapply RSeq; [exact (RGrp _ _ 1 _ _ _ R1)|eapply RSeq; [exact (RGrp _ _ 2 _ _ _ R2)|apply RBound]]]; cbn [bef aft].
  - unfold at_word_boundary. cbn [app]. rewrite W1. destruct b as [|c b']; [reflexivity|]. rewrite (ok_space_word _ ascii_udb_ok c) by (eapply Hb; reflexivity). reflexivity.
  - unfold at_word_boundary, can, not. cbn [rev app]. rewrite W6. destruct y as [|c y']; [reflexivity|]. rewrite (Hy c y' eq_refl). reflexivity.
Qed.
Lemma quiet_can : quiet true rca nletter = true.
Proof. vm_compute. reflexivity. Qed.
Lemma cskip_nl c b a : (c < 128)%N -> a_letter c = false -> src b (c :: a) = c :: src (c :: b) a.
Proof. intros H1 H2. apply sr_skip; [exact HNc|]. apply (quiet_none _ _ nletter); [exact quiet_can|exact H1|]. unfold nletter. rewrite H2. reflexivity. Qed.
Lemma cinside c1 c2 b a : u_word A c1 = true -> u_word A c2 = true -> match_at A true rca (c1 :: b) (c2 :: a) = None.
Proof.
  intros H1 H2. destruct (match_at A true rca (c1 :: b) (c2 :: a)) as [st|] eqn:E; [|reflexivity]. apply cannot_inv in E. destruct E as [E _]. unfold at_word_boundary in E. rewrite H1, H2 in E. discriminate E.
Qed.
Lemma crun_word p : Forall (fun c => u_word A c = true) p -> forall c1 b a, u_word A c1 = true -> src (c1 :: b) (p ++ a) = p ++ src (rev p ++ c1 :: b) a.
Proof.
  induction 1 as [|c p Hc Hp IH]; intros c1 b a H1; [reflexivity|]. cbn [app]. rewrite sr_skip; [|exact HNc|apply cinside; assumption]. rewrite IH by exact Hc. cbn [rev]. rewrite <- app_assoc. reflexivity.
Qed.
Lemma crun_letters p b a : p <> [] -> Forall (fun c => a_letter c = true) p -> match_at A true rca b (p ++ a) = None -> src b (p ++ a) = p ++ src (rev p ++ b) a.
Proof.
  intros Hn Hp HM. destruct p as [|c p]; [congruence|]. inversion Hp; subst. cbn [app] in *. rewrite sr_skip; [|exact HNc|exact HM]. rewrite crun_word; [cbn [rev]; rewrite <- app_assoc; reflexivity| |apply letter_word; assumption].
  eapply Forall_impl; [|eassumption]. intros d. apply letter_word.
Qed.
Lemma crun_nl p b a : Forall (fun c => (c < 128)%N /\ a_letter c = false) p -> src b (p ++ a) = p ++ src (rev p ++ b) a.
Proof.
  intros H. revert b. induction H as [|c p [H1 H2] Hp IH]; intros b; [reflexivity|]. cbn [app]. rewrite cskip_nl by assumption. rewrite IH. cbn [rev]. rewrite <- app_assoc. reflexivity.
Qed.
Lemma ctail_run t b a : tl_ok t -> src b (tstr t ++ a) = tstr t ++ src (rev (tstr t) ++ b) a.
Proof.
  intros Ht. destruct t as [|m0|]; [reflexivity| |].
  - apply crun_nl. constructor; [|constructor]. cbn in Ht. repeat destruct Ht as [<-|Ht]; try (split; reflexivity). contradiction.
  - unfold tstr, nsd. change (lit "_NSD_") with (95%N :: lit "NSD_"). cbn [app]. rewrite cskip_nl by reflexivity. rewrite crun_word; [cbn [rev]; rewrite <- app_assoc; reflexivity| |reflexivity]. repeat constructor.
Qed.
(** a word of letters is cannot, or the rule does not fire *)
Lemma cletters p v x y : Forall (fun c => a_letter c = true) p -> Forall (fun c => a_letter c = true) v -> p ++ x = v ++ y -> (forall c x', x = c :: x' -> a_letter c = false) -> (forall c y', y = c :: y' -> a_letter c = false) -> v = p /\ x = y.
Proof.
  intros Hp. revert v. induction Hp as [|c p Hc Hp IH]; intros v Hv E Hx Hy; destruct v as [|d v]; cbn [app] in E.
  - auto.
  - exfalso. specialize (Hx d _ E). inversion Hv; congruence.
  - exfalso. specialize (Hy c _ (eq_sym E)). congruence.
  - injection E as -> E. inversion Hv; subst. destruct (IH v H2 E Hx Hy) as [-> ->]. auto.
Qed.
Lemma cannot_at p x b st : Forall (fun c => a_letter c = true) p -> (forall c x', x = c :: x' -> a_letter c = false) -> match_at A true rca b (p ++ x) = Some st ->
  is_cannot p /\ (forall c x', x = c :: x' -> u_word A c = false) /\ expand tca (matched b st) st = firstn 3 p ++ [32%N] ++ skipn 3 p /\ bef st = rev p ++ b /\ aft st = x.
Proof.
  intros Hp Hx M. apply cannot_inv in M. destruct M as (_ & can & not & y & E & C & L & G1 & G2 & B & Ay & Bd). pose proof (cannot_letters _ C) as CL0.
  assert (Ny : forall c y', y = c :: y' -> u_word A c = false).
  { intros c y' ->. rewrite B in Bd. destruct (rev (can ++ not)) as [|d r] eqn:Er; [apply (f_equal (@length char)) in Er; rewrite rev_length, app_length in Er; cbn in Er; rewrite L in Er; discriminate|]. unfold at_word_boundary in Bd. cbn [app] in Bd.
    assert (u_word A d = true). { apply letter_word. rewrite Forall_forall in CL0. apply CL0. apply in_rev. match goal with |- In d ?z => replace z with (d :: r) by (symmetry; exact Er) end. left. reflexivity. } rewrite H in Bd. destruct (u_word A c); [discriminate|reflexivity]. }
  apply cletters in E; [|exact Hp|exact CL0|exact Hx|]. 2:{ intros c y' Ey. specialize (Ny c y' Ey). destruct (a_letter c) eqn:El; [|reflexivity]. rewrite (letter_word c El) in Ny. discriminate. }
  destruct E as [E ->]. subst p. split; [exact C|]. split; [exact Ny|]. split; [|split; [exact B|exact Ay]].
  unfold expand. cbn [sg nth re_segment_off r_rep mk flat_map]. unfold g, tl_. rewrite G1, G2, app_nil_r. rewrite <- L. rewrite firstn_app, Nat.sub_diag, firstn_all, skipn_app, Nat.sub_diag, skipn_all. cbn [firstn skipn app]. rewrite app_nil_r. reflexivity.
Qed.
Definition cannotb (p : str) : bool := if list_eq_dec N.eq_dec (map uncapital p) (lit "cannot") then true else false.
Lemma cannotb_iff p : cannotb p = true <-> is_cannot p.
Proof. unfold cannotb. destruct (list_eq_dec _ _ _); split; auto; discriminate. Qed.
Definition split_can (p : str) (t : tl) : bool := cannotb p && match t with TKept => false | _ => true end.
Definition fcan (x : mw) : str := match x with MC (Plain p) t => if split_can p t then firstn 3 p ++ [32%N] ++ skipn 3 p ++ tstr t else mstr x | _ => mstr x end.
Definition Fcan (x : mw) : list mw := match x with MC (Plain p) t => if split_can p t then [MC (Plain (firstn 3 p)) TNone; MC (Plain (skipn 3 p)) t] else [x] | _ => [x] end.
Lemma tail_nl t rest c x : tl_ok t -> sfirst rest -> tstr t ++ rest = c :: x -> a_letter c = false.
Proof.
  intros Ht Hr E. destruct t as [|m0|]; cbn [tstr app] in E.
  - specialize (Hr c x E). destruct (a_letter c) eqn:El; [|reflexivity]. rewrite letter_sp in Hr by exact El. discriminate.
  - injection E as <- _. cbn in Ht. repeat destruct Ht as [<-|Ht]; try reflexivity. contradiction.
  - injection E as <- _. reflexivity.
Qed.
Lemma chyph_run q : Forall (fun w => letters w /\ ~ is_cannot w) q -> forall b a, src b (hyphens q ++ a) = hyphens q ++ src (rev (hyphens q) ++ b) a.
Proof.
  induction 1 as [|w0 q [[Hn Hw] HC] _ IH]; intros b a; [reflexivity|]. change (hyphens (w0 :: q)) with ((w0 ++ [45%N]) ++ hyphens q). rewrite <- !app_assoc. cbn [app].
  rewrite crun_letters; [|exact Hn|exact Hw|].
  - rewrite cskip_nl by reflexivity. rewrite IH. rewrite !rev_app_distr. cbn [rev app]. rewrite <- !app_assoc. reflexivity.
  - match goal with |- match_at A true rca ?b0 ?a0 = None => destruct (match_at A true rca b0 a0) as [st|] eqn:EM end; [|first [exact EM|reflexivity]]. exfalso. apply cannot_at in EM; [|exact Hw|intros e x Ee; injection Ee as <- _; reflexivity]. destruct EM as (C & _). contradiction.
Qed.
Lemma rule_cannot a xs : words a = map mstr xs -> Forall ok3 xs -> words (apply_rule A a (sg 0)) = map mstr (flat_map Fcan xs).
Proof.
  apply (step (sg 0) ok3 HNc ltac:(vm_compute; reflexivity) fcan Fcan).
  - intros b x rest [Hx Hm] Hb Hr. change (r_ic (sg 0)) with true. destruct x as [c t|s].
    + destruct Hx as (Hc & Ht & Hk). cbn [mstr]. rewrite <- app_assoc. rewrite rev_app_distr, <- app_assoc. destruct c as [p|n|p c|q p|key]; cbn [core_ok SEnglish.core_ok ctext fcan] in *.
      * destruct Hc as [Hn Hp]. destruct (split_can p t) eqn:ES.
        -- apply andb_true_iff in ES. destruct ES as [E1 E2]. apply cannotb_iff in E1. destruct (match_at A true rca b (p ++ tstr t ++ rest)) as [st|] eqn:EM.
           ++ rewrite (sr_match _ _ _ _ HNc _ _ _ EM). apply cannot_at in EM; [|exact Hp|intros c x; apply tail_nl; assumption]. destruct EM as (_ & _ & EE & EB & EA). rewrite EE, EB, EA. rewrite ctail_run by exact Ht. rewrite <- !app_assoc. reflexivity.
           ++ exfalso. revert EM. apply cannot_found; [exact Hb|exact E1|]. intros c y Ey. destruct t as [|m0|]; [| |discriminate E2]; cbn [tstr app] in Ey.
              ** apply (ok_space_word _ ascii_udb_ok). exact (Hr c y Ey).
              ** injection Ey as <- _. cbn in Ht. repeat destruct Ht as [<-|Ht]; try reflexivity. contradiction.
        -- cbn [mstr ctext]. rewrite crun_letters; [rewrite ctail_run by exact Ht; rewrite <- app_assoc; reflexivity|exact Hn|exact Hp|].
           destruct (match_at A true rca b (p ++ tstr t ++ rest)) as [st|] eqn:EM; [|first [exact EM|reflexivity]]. exfalso. apply cannot_at in EM; [|exact Hp|intros c x; apply tail_nl; assumption]. destruct EM as (C & Nw & _). apply cannotb_iff in C. unfold split_can in ES. rewrite C in ES. cbn [andb] in ES.
           destruct t as [|m0|]; try discriminate ES. specialize (Nw 95%N (lit "NSD_" ++ rest) eq_refl). discriminate Nw.
      * rewrite crun_nl by (apply number_nl; exact Hc). rewrite ctail_run by exact Ht. cbn [mstr ctext]. rewrite <- app_assoc. reflexivity.
      * destruct Hc as ([Hn Hp] & HC & Hc). destruct (clitic_parts c Hc) as (u & v & Ec & Hu & Hv & Hvn & _). cbn [mstr ctext]. rewrite Ec. rewrite <- !app_assoc. cbn [app].
        replace (p ++ u ++ 39%N :: v ++ tstr t ++ rest) with ((p ++ u) ++ 39%N :: v ++ tstr t ++ rest) by (rewrite <- app_assoc; reflexivity).
        rewrite crun_letters; [|destruct p; [congruence|discriminate]|apply Forall_app; auto|].
        -- rewrite cskip_nl by reflexivity. rewrite crun_letters; [|exact Hvn|exact Hv|].
           ++ rewrite ctail_run by exact Ht. rewrite !rev_app_distr. cbn [rev]. rewrite <- !app_assoc. cbn [app]. rewrite <- ?app_assoc. reflexivity.
           ++ match goal with |- match_at A true rca ?b0 ?a0 = None => destruct (match_at A true rca b0 a0) as [st|] eqn:EM end; [|first [exact EM|reflexivity]]. exfalso. apply cannot_at in EM; [|exact Hv|intros e x; apply tail_nl; assumption]. destruct EM as (C & _). apply is_cannot_len in C.
              assert (LV : (length c <=? 3) = true) by (apply (clitic_all (fun c => length c <=? 3)); [vm_compute; reflexivity|exact Hc]). apply Nat.leb_le in LV. rewrite Ec, app_length in LV. cbn [length] in LV. lia.
        -- match goal with |- match_at A true rca ?b0 ?a0 = None => destruct (match_at A true rca b0 a0) as [st|] eqn:EM end; [|first [exact EM|reflexivity]]. exfalso. apply cannot_at in EM; [|apply Forall_app; auto|intros e x Ee; injection Ee as <- _; reflexivity]. destruct EM as (C & _).
           assert (LU : (let '(u, _) := clitic_cut c in (if list_eq_dec N.eq_dec c (u ++ 39%N :: snd (clitic_cut c)) then true else false) && (match u with [] => true | [l] => (uncapital l =? 110)%N | _ => false end)) = true)
             by (apply (clitic_all (fun c => let '(u, _) := clitic_cut c in (if list_eq_dec N.eq_dec c (u ++ 39%N :: snd (clitic_cut c)) then true else false) && (match u with [] => true | [l] => (uncapital l =? 110)%N | _ => false end))); [vm_compute; reflexivity|exact Hc]).
           destruct (clitic_cut c) as [u2 v2]. cbn [snd] in LU. apply andb_true_iff in LU. destruct LU as [LU1 LU2]. destruct (list_eq_dec _ _ _) as [E2|]; [|discriminate].
           assert (u = u2). { rewrite Ec in E2. assert (NQ : forall q, Forall (fun c => a_letter c = true) q -> ~ In 39%N q) by (intros q Hq; apply letters_no; [exact Hq|reflexivity]).
             destruct u2 as [|l [|]]; try discriminate LU2; destruct u as [|k [|k2 u]]; try reflexivity; cbn [app] in E2.
             - injection E2 as -> E2. exfalso. inversion Hu; subst. discriminate.
             - injection E2 as -> E2. exfalso. inversion Hu; subst. discriminate.
             - injection E2 as <- E2. exfalso. apply N.eqb_eq in LU2. discriminate LU2.
             - injection E2 as -> _. reflexivity.
             - injection E2 as -> -> E2. exfalso. inversion Hu as [|? ? _ Hu2]; subst. inversion Hu2; subst. discriminate. }
           subst u2. destruct u as [|l [|]]; [rewrite app_nil_r in C; contradiction| |discriminate LU2]. unfold is_cannot in C. rewrite map_app in C. cbn [map] in C. change (lit "cannot") with (lit "canno" ++ [116%N]) in C. apply app_inj_tail in C. destruct C as [_ C]. rewrite C in LU2. discriminate LU2.
      * destruct Hc as (_ & HQ & [Hn Hp] & HC). cbn [mstr ctext]. rewrite <- !app_assoc. rewrite chyph_run by exact HQ. rewrite crun_letters; [|exact Hn|exact Hp|].
        -- rewrite ctail_run by exact Ht. rewrite rev_app_distr, <- !app_assoc. reflexivity.
        -- match goal with |- match_at A true rca ?b0 ?a0 = None => destruct (match_at A true rca b0 a0) as [st|] eqn:EM end; [|first [exact EM|reflexivity]]. exfalso. apply cannot_at in EM; [|exact Hp|intros e x; apply tail_nl; assumption]. destruct EM as (C & _). contradiction.
      * destruct (key_word key Hc) as (r & Ek & Hr2). cbn [mstr ctext]. rewrite Ek. cbn [app]. rewrite cskip_nl by reflexivity. rewrite crun_word; [|exact Hr2|reflexivity]. rewrite ctail_run by exact Ht. cbn [rev]. rewrite <- !app_assoc. reflexivity.
    + cbn [fcan mstr]. apply crun_nl. destruct Hm as [<-|[<-|[<-|[<-|[]]]]]; (constructor; [split; reflexivity|constructor]).
  - intros x [Hx Hm]. destruct (base_word _ Hx) as [H1 H2]. pose proof (split_ws_word (u_space A) _ H1 H2) as W. unfold fcan, Fcan. destruct x as [[p|n|p c|q p|key] t|s]; try exact W. destruct (split_can p t) eqn:ES; [|exact W].
    apply andb_true_iff in ES. destruct ES as [E1 _]. apply cannotb_iff in E1. pose proof (is_cannot_len p E1) as L. destruct Hx as ([Hn Hp] & Ht & _). cbn [map mstr ctext tstr] in *. rewrite app_nil_r.
    rewrite <- (firstn_skipn 3 p) in H2, Hp. rewrite !Forall_app in H2. destruct H2 as ((H2 & H3) & H4).
    etransitivity; [apply (words_app_r A (firstn 3 p) ([32%N] ++ skipn 3 p ++ tstr t)); intros d y Ey; injection Ey as <- _; reflexivity|]. rewrite (split_ws_word _ (firstn 3 p)); [|apply (f_equal (@length char)) in E1; rewrite map_length in E1; cbn in E1; destruct p; discriminate|exact H2]. cbn [app]. f_equal.
    rewrite split_ws_cons_space by reflexivity. apply split_ws_word; [|apply Forall_app; auto]. intros F. apply (f_equal (@length char)) in F. rewrite app_length, skipn_length in F. cbn [length] in F. unfold str, char in *. lia.
Qed.
Lemma cannot_ok xs : Forall ok3 xs -> Forall ok3 (flat_map Fcan xs).
Proof.
  induction 1 as [|x xs [Hx Hm] _ IH]; [constructor|]. cbn [flat_map]. apply Forall_app. split; [|exact IH]. unfold Fcan. destruct x as [[p|n|p c|q p|key] t|s]; try (constructor; [split; assumption|constructor]). destruct (split_can p t) eqn:ES; [|constructor; [split; assumption|constructor]].
  apply andb_true_iff in ES. destruct ES as [E1 _]. apply cannotb_iff in E1. pose proof (is_cannot_len p E1) as L. destruct Hx as ([Hn Hp] & Ht & _). pose proof Hp as Hp2. rewrite <- (firstn_skipn 3 p) in Hp2. apply Forall_app in Hp2. destruct Hp2 as [P1 P2].
  constructor; [|constructor; [|constructor]].
  - split; [|exact I]. split; [|split; exact I]. split; [destruct p; discriminate|exact P1].
  - split; [split; [|split; [exact Ht|exact I]]|].
    + split; [|exact P2]. intros F. apply (f_equal (@length char)) in F. rewrite skipn_length in F. cbn [length] in F. unfold str, char in *. lia.
    + destruct t as [|m0|]; try exact I. destruct Hm as [Hm|[-> Hi]]; [left; exact Hm|]. destruct p as [|? [|]]; try discriminate Hi. discriminate E1.
Qed.
