(** Sanitization of a text, and the content of its tokens. *)
From Coq Require Import Ascii String.
From Coq Require Import List NArith ZArith Arith Bool Lia.
From Verif Require Import PyBase Regex MTokenizer SText STok LBase LText LRegex LSub LSentencizer LRestore LTok LTokWords LDecode LGood LRule LStages LProtect LTokDec.
Import ListNotations.
Local Open Scope nat_scope.

(** a part of a list in which nothing comes from an inserted part *)
Lemma around {A} (P : A -> Prop) (k p x q : list A) : k <> [] -> Forall P k -> x <> [] -> Forall (fun c => ~ P c) x -> (exists a b, p ++ x ++ q = a ++ k ++ b) ->
  (exists a b, p = a ++ k ++ b) \/ (exists a b, q = a ++ k ++ b).
Proof.
  intros Hn Fk Hx Fx (a & b & E). rewrite Forall_forall in Fx, Fk. destruct (app_eq_app _ _ _ _ E) as (l & [[E1 E2]|[E1 E2]]).
  - (* p = a ++ l, k ++ b = l ++ x ++ q *) destruct (app_eq_app _ _ _ _ E2) as (l2 & [[E3 E4]|[E3 E4]]).
    + destruct l2 as [|c l2].
      * left. exists a, []. rewrite app_nil_r in *. congruence.
      * exfalso. destruct x as [|c' x]; [congruence|]. injection E4 as -> _. apply (Fx c); [left; reflexivity|apply Fk; rewrite E3, in_app_iff; right; left; reflexivity].
    + left. exists a, l2. rewrite E1, E3. reflexivity.
  - (* a = p ++ l, x ++ q = l ++ k ++ b *) destruct (app_eq_app _ _ _ _ E2) as (l2 & [[E3 E4]|[E3 E4]]).
    + destruct l2 as [|c l2].
      * right. exists [], b. symmetry. exact E4.
      * exfalso. destruct k as [|c' k]; [congruence|]. injection E4 as -> _. apply (Fx c); [rewrite E3, in_app_iff; right; left; reflexivity|apply Fk; left; reflexivity].
    + right. exists l2, b. exact E4.
Qed.

(** the characters sanitization inserts *)
Definition inserted : list char := [39; 34; 45; 32]%N.
Section Sanit.
  Context (U : udb) (OK : udb_ok U).
  Notation words := (split_ws (u_space U)).
  Definition rsan (w w' : list dch) : Prop := rany U w w' /\ nsp U w' <> [] /\ exists x', w' = map C x' /\ (forall c, In c x' -> In c inserted).
  Lemma nsp_map_in x c : In c (nsp U (map C x)) -> In c x.
  Proof. rewrite nsp_C. intros H. apply filter_In in H. tauto. Qed.
  Lemma rsan_factor d d' k : k <> [] -> (forall c, In c k -> ~ In c inserted) -> rewr rsan d d' -> forall a, factor (map C k) (a ++ d') -> factor (map C k) (a ++ d).
  Proof.
    intros Hn Hk H. induction H as [d|p w w' b b' [_ (Hx & x' & -> & Hi)] H IH]; intros a F; [exact F|]. rewrite !app_assoc in F. apply (IH ((a ++ p) ++ map C x')) in F. rewrite <- !app_assoc in F.
    assert (G : (exists u v, a ++ p = u ++ map C k ++ v) \/ (exists u v, b = u ++ map C k ++ v)).
    { apply (around (fun c => match c with C c => ~ In c inserted | M _ => True end) (map C k) (a ++ p) (map C x') b).
      - intros E. apply map_eq_nil in E. auto.
      - apply Forall_map, Forall_forall. exact Hk.
      - intros E. apply map_eq_nil in E. subst x'. apply Hx. reflexivity.
      - apply Forall_map, Forall_forall. intros c Hc F2. exact (F2 (Hi c Hc)).
      - destruct F as (u & v & F). exists u, v. rewrite <- app_assoc. exact F. }
    destruct G as [(u & v & E)|(u & v & E)].
    - exists u, (v ++ w ++ b). rewrite app_assoc, E, <- !app_assoc. reflexivity.
    - exists (a ++ p ++ w ++ u), v. rewrite E, <- !app_assoc. reflexivity.
  Qed.
  Lemma rsan_has d d' k : k <> [] -> (forall c, In c k -> ~ In c inserted) -> rewr rsan d d' -> forall a, has k (nsp U (a ++ d')) -> has k (nsp U (a ++ d)).
  Proof.
    intros Hn Hk H. induction H as [d|p w w' b b' [_ (Hx & x' & -> & Hi)] H IH]; intros a F; [exact F|]. rewrite !app_assoc in F. apply (IH ((a ++ p) ++ map C x')) in F. rewrite <- !app_assoc, app_assoc, !nsp_app in F.
    assert (G : (exists u v, nsp U (a ++ p) = u ++ k ++ v) \/ (exists u v, nsp U b = u ++ k ++ v)).
    { apply (around (fun c => ~ In c inserted) k (nsp U (a ++ p)) (nsp U (map C x')) (nsp U b)).
      - exact Hn.
      - apply Forall_forall. exact Hk.
      - exact Hx.
      - apply Forall_forall. intros c Hc F2. apply F2, Hi. apply nsp_map_in. exact Hc.
      - destruct F as (u & v & F). exists u, v. rewrite nsp_app. exact F. }
    assert (EN : nsp U (a ++ p ++ w ++ b) = nsp U (a ++ p) ++ nsp U w ++ nsp U b) by (rewrite app_assoc, (nsp_app U (a ++ p)), (nsp_app U w); reflexivity).
    unfold has. rewrite EN. clear - G. revert G. generalize (nsp U (a ++ p)) (nsp U b). intros n1 n2 G. destruct G as [(u & v & ->)|(u & v & ->)].
    - exists u, (v ++ nsp U w ++ n2). repeat rewrite <- (@app_assoc N). reflexivity.
    - exists (n1 ++ nsp U w ++ u), v. repeat rewrite <- (@app_assoc N). reflexivity.
  Qed.

  (** parts without inserted characters come from the text *)
  Definition kept (d0 d : list dch) : Prop := forall k, k <> [] -> (forall c, In c k -> ~ In c inserted) -> (factor (map C k) d -> factor (map C k) d0) /\ (has k (nsp U d) -> has k (nsp U d0)).
  Lemma kept_refl d : kept d d.
  Proof. intros k _ _. auto. Qed.
  Lemma kept_trans d0 d1 d2 : kept d0 d1 -> kept d1 d2 -> kept d0 d2.
  Proof. intros H1 H2 k Hn Hk. destruct (H1 k Hn Hk), (H2 k Hn Hk). auto. Qed.
  Lemma kept_rewr d d' : rewr rsan d d' -> kept d d'.
  Proof. intros H k Hn Hk. split; [apply (rsan_factor d d' k Hn Hk H [])|apply (rsan_has d d' k Hn Hk H [])]. Qed.
  Lemma factor_join k : k <> [] -> ~ In 32%N k -> forall ds, factor (map C k) (djoin ds) -> exists w, In w ds /\ factor (map C k) w.
  Proof.
    intros Hn H32. induction ds as [|w ds IH]; intros F.
    - destruct F as (a & b & E). cbn in E. destruct a; [|discriminate]. cbn in E. destruct k; [congruence|discriminate].
    - destruct ds as [|w2 ds]; [exists w; split; [left; reflexivity|exact F]|]. rewrite djoin_cons in F by discriminate.
      assert (G : (exists u v, w = u ++ map C k ++ v) \/ (exists u v, djoin (w2 :: ds) = u ++ map C k ++ v)).
      { apply (around (fun c => c <> C 32%N) (map C k) w [C 32%N]).
        - intros E. apply map_eq_nil in E. auto.
        - apply Forall_map, Forall_forall. intros c Hc E. injection E as ->. auto.
        - discriminate.
        - constructor; [intros K; apply K; reflexivity|constructor].
        - destruct F as (u & v & F). exists u, v. exact F. }
      destruct G as [(u & v & E)|G]; [exists w; split; [left; reflexivity|exists u, v; exact E]|]. destruct (IH G) as (w3 & Hw3 & F3). exists w3. split; [right; exact Hw3|exact F3].
  Qed.
  Lemma kept_wseq d ds : wseq U d ds -> kept d (djoin ds).
  Proof.
    intros W k Hn Hk. split.
    - intros F. apply factor_join in F; [|exact Hn|intros Hc; apply (Hk _ Hc); cbn; auto]. destruct F as (w & Hw & (a & b & ->)). clear Hk Hn. induction W as [s H|s w rest ws Hs Hr H IH]; [destruct Hw|]. destruct Hw as [->|Hw].
      + exists (s ++ a), (b ++ rest). rewrite <- !app_assoc. reflexivity.
      + destruct (IH Hw) as (u & v & ->). exists (s ++ w ++ u), v. rewrite <- !app_assoc. reflexivity.
    - rewrite (proj1 (nsp_djoin U OK ds)), <- (proj1 (wseq_content U d ds W)). auto.
  Qed.

  Section Dec.
    Context (rs : list char) (RS : incl rs res_chars) (env0 : envt) (FE : framed_env rs env0).
    Notation dec := (dec rs env0).
    Lemma isp_spaces p : Forall (fun c => u_space U c = true) p -> forallb (isp U) (map C p) = true.
    Proof. induction 1 as [|c p Hc H IH]; [reflexivity|]. cbn. rewrite Hc. exact IH. Qed.
    Lemma strip_split t : exists p q, t = p ++ strip (u_space U) t ++ q /\ Forall (fun c => u_space U c = true) p /\ Forall (fun c => u_space U c = true) q.
    Proof.
      destruct (lstrip_split U t) as (p & E & Hp). unfold strip. destruct (lstrip_split U (rev (lstrip (u_space U) t))) as (q & Eq & Hq). exists p, (rev q). split; [|split; [exact Hp|apply Forall_rev; exact Hq]].
      rewrite E at 1. f_equal. apply (f_equal (@rev _)) in Eq. rewrite rev_involutive, rev_app_distr in Eq. exact Eq.
    Qed.
    Lemma strip_dec ms t d : dec t d -> good U ms d -> exists d', dec (strip (u_space U) t) d' /\ good U ms d' /\ kept d d'.
    Proof.
      intros Hd HG. destruct (strip_split t) as (p & q & E & Hp & Hq). rewrite E in Hd.
      apply dec_plain_inv in Hd; [|exact FE|apply (space_plain U OK rs RS); rewrite Forall_forall in Hp; exact Hp]. destruct Hd as (d2 & -> & Hd).
      apply (dec_space_cut U OK rs RS) in Hd; [|exact FE|intros c y' ->; inversion Hq; assumption]. destruct Hd as (dx & dq & -> & Hx & Hdq).
      assert (exists d3, dq = map C q ++ d3 /\ dec [] d3) as (d3 & -> & H3) by (apply dec_plain_inv; [exact FE|apply (space_plain U OK rs RS); rewrite Forall_forall in Hq; exact Hq|rewrite app_nil_r; exact Hdq]).
      assert (d3 = []) as -> by (inversion H3 as [| |a v t0 d0 Hi _ E']; subst; [reflexivity|]; destruct (FE _ _ Hi) as (f1 & mid & f2 & -> & _); discriminate).
      rewrite app_nil_r in *. exists dx. pose proof (wseq_single U (map C p) dx (map C q) (isp_spaces p Hp) (isp_spaces q Hq)) as W.
      split; [exact Hx|]. split; [exact (wseq_good U OK ms _ _ W HG)|exact (kept_wseq _ _ W)].
    Qed.
    Definition san_ok (ru : rule) : bool :=
      base_ok [] ru (r_rep ru) && any_ok ru (r_rep ru) && mustb rare_symbols (r_pat ru) && forallb (fun i => match i with TLit s => forallb (fun c => existsb (N.eqb c) inserted) s | _ => false end) (r_rep ru) &&
      existsb (fun i => match i with TLit s => existsb (fun c => (33 <=? c)%N && (c <? 127)%N) s | _ => false end) (r_rep ru).
    Lemma san_all : forallb san_ok tk_sanitization = true.
    Proof. vm_compute. reflexivity. Qed.
    Lemma san_rule ms ru t d : san_ok ru = true -> dec t d -> good U ms d -> exists d', dec (apply_rule U t ru) d' /\ good U ms d' /\ kept d d'.
    Proof.
      intros H Hd HG. unfold san_ok in H. repeat rewrite andb_true_iff in H. destruct H as [[[[H1 H2] H3] H4] H5].
      destruct (rule_any_ctx U OK rs RS [] env0 FE ltac:(intros x []) ru (r_rep ru) H1) with (f := fun _ x' : str => (forall c, In c x' -> In c inserted) /\ exists c, In c x' /\ u_space U c = false) (s := t) (d := d) as (d' & D & R); [apply (must_rare U OK rs RS); exact H3|exact H2| |exact Hd|].
      - intros b w y st _ _ _ _. split; [intros c Hc|apply existsb_exists in H5; destruct H5 as (i & Hi & H5); destruct i as [s|]; [|discriminate]; apply existsb_exists in H5; destruct H5 as (c & Hc & H5); apply andb_true_iff in H5; rewrite N.leb_le, N.ltb_lt in H5; exists c; split; [unfold expand; apply in_flat_map; exists (TLit s); auto|apply (printable_space U OK); lia]]. unfold expand in Hc. apply in_flat_map in Hc. destruct Hc as (i & Hi & Hc). rewrite forallb_forall in H4. specialize (H4 i Hi). destruct i as [s|]; [|discriminate]. rewrite forallb_forall in H4. apply mem_in. exact (H4 c Hc).
      - exists d'. split; [exact D|]. split; [eapply rewr_good; [|exact HG]; eapply rewr_impl; [|exact R]; intros w w' [[K _] _]; exact K|].
        apply kept_rewr. eapply rewr_impl; [|exact R]. intros w w' [[K _] (x & x' & _ & -> & Hf & (c & Hc & Hsp))]. split; [exact K|]. split; [|exists x'; auto]. rewrite nsp_C. intros E. assert (I0 : In c (filter (fun c => negb (u_space U c)) x')) by (apply filter_In; rewrite Hsp; auto). destruct (eq_ind _ (fun l => In c l) I0 _ E).
    Qed.
    Lemma san_rules ms rules : forallb san_ok rules = true -> forall t d, dec t d -> good U ms d -> exists d', dec (fold_left (apply_rule U) rules t) d' /\ good U ms d' /\ kept d d'.
    Proof.
      induction rules as [|ru rules IH]; intros H t d Hd HG; [exists d; split; [exact Hd|split; [exact HG|apply kept_refl]]|]. cbn [forallb] in H. apply andb_true_iff in H. destruct H as [H1 H2].
      destruct (san_rule ms ru t d H1 Hd HG) as (d1 & D1 & G1 & K1). destruct (IH H2 _ _ D1 G1) as (d2 & D2 & G2 & K2). exists d2. split; [exact D2|]. split; [exact G2|eapply kept_trans; eauto].
    Qed.
    Lemma sanitize_dec ms t d : dec t d -> good U ms d -> exists d', dec (sanitize U tk_sanitization t) d' /\ good U ms d' /\ kept d d'.
    Proof.
      intros Hd HG. unfold sanitize. destruct (strip_dec ms t d Hd HG) as (d1 & D1 & G1 & K1). destruct (san_rules ms _ san_all _ _ D1 G1) as (d2 & D2 & G2 & K2). revert D2. generalize (fold_left (apply_rule U) tk_sanitization (strip (u_space U) t)). intros s D2.
      destruct (dec_words' U OK rs RS env0 s d2 FE D2) as (ds & F & W). exists (djoin ds). split; [apply (dec_join U OK rs RS); exact F|]. split; [exact (wseq_good U OK ms _ _ W G2)|]. eapply kept_trans; [exact K1|]. eapply kept_trans; [exact K2|exact (kept_wseq _ _ W)].
    Qed.
  End Dec.
End Sanit.
