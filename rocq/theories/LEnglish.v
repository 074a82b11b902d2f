(** Proofs about the tokenizer on ordinary English text: the rules, one by one, on ASCII texts. *)
From Coq Require Import Ascii String.
From Coq Require Import List NArith ZArith Arith Bool Lia.
From Verif Require Import PyBase Regex MTokenizer STok SEnglish LBase LText LRegex LSub LTok LTokWords LRun.
Import ListNotations.
Local Open Scope nat_scope.

Notation A := ascii_udb.
Notation words := (split_ws (u_space A)).
Notation sfirst := (sfirst A).

(** the texts after the addresses are protected: a key stands for each of them *)
Definition keyp (k : str) : Prop := exists n, k = protect_key n.
Definition core_ok (c : core) : Prop := match c with Web k => keyp k | _ => SEnglish.core_ok c end.
Inductive english : list eword -> Prop :=
| english_nil : english []
| english_word c ws : core_ok c -> english ws -> english (EWord c None :: ws)
| english_mark c m ws : core_ok c -> In m (lit ",!?;:") -> english ws -> english (EWord c (Some m) :: ws)
| english_stop c ws : core_ok c -> stop_ok c ws -> english ws -> english (EWord c (Some 46%N) :: ws).

(** *** classes of ASCII characters *)
Definition ASCII : list char := map N.of_nat (seq 0 128).
Lemma ascii_all (p : char -> bool) c : forallb p ASCII = true -> (c < 128)%N -> p c = true.
Proof.
  intros H Hc. rewrite forallb_forall in H. apply H. unfold ASCII. replace c with (N.of_nat (N.to_nat c)) by apply N2Nat.id. apply in_map. apply in_seq. lia.
Qed.
Lemma class_all (q p : char -> bool) c : forallb (fun c => implb (q c) (p c)) ASCII = true -> (c < 128)%N -> q c = true -> p c = true.
Proof. intros H Hc Hq. pose proof (ascii_all _ c H Hc) as G. cbn in G. rewrite Hq in G. exact G. Qed.
Lemma letter_lt c : a_letter c = true -> (c < 128)%N.
Proof. unfold a_letter, upper_case, lower_case. rewrite orb_true_iff, !andb_true_iff, !N.leb_le. lia. Qed.
Lemma digit_lt c : a_digit c = true -> (c < 128)%N.
Proof. unfold a_digit. rewrite !andb_true_iff, !N.leb_le. lia. Qed.
Ltac chars c H := repeat first [destruct H as [H|H]; [subst c|]]; try contradiction H.
Lemma class_in (q : char -> bool) l c : forallb (fun c => implb (q c) (existsb (N.eqb c) l)) ASCII = true -> (c < 128)%N -> q c = true -> In c l.
Proof. intros H Hc Hq. pose proof (class_all _ _ c H Hc Hq) as G. apply mem_in in G. exact G. Qed.
Definition SP : list char := [9; 10; 11; 12; 13; 28; 29; 30; 31; 32; 133; 160; 5760; 8192; 8193; 8194; 8195; 8196; 8197; 8198; 8199; 8200; 8201; 8202; 8232; 8233; 8239; 8287; 12288]%N.
Definition DG : list char := [48; 49; 50; 51; 52; 53; 54; 55; 56; 57]%N.
Lemma space_in c : u_space A c = true -> In c SP.
Proof.
  intros H. destruct (c <? 128)%N eqn:E.
  - apply (class_in (u_space A)); [vm_compute; reflexivity|apply N.ltb_lt; exact E|exact H].
  - cbn [u_space ascii_udb] in H. rewrite E in H. apply mem_in in H. do 10 right. exact H.
Qed.
Lemma digit_in c : a_digit c = true -> In c DG.
Proof. intros H. apply (class_in a_digit); [vm_compute; reflexivity|apply digit_lt; exact H|exact H]. Qed.
Lemma letter_sp c : a_letter c = true -> u_space A c = false.
Proof. intros H. apply negb_true_iff. apply (class_all a_letter (fun c => negb (u_space A c))); [vm_compute; reflexivity|apply letter_lt; exact H|exact H]. Qed.
Lemma digit_sp c : a_digit c = true -> u_space A c = false.
Proof. intros H. apply negb_true_iff. apply (class_all a_digit (fun c => negb (u_space A c))); [vm_compute; reflexivity|apply digit_lt; exact H|exact H]. Qed.

(** a class of characters no match of the pattern starts with *)
Definition quiet (ic : bool) (r : re) (q : char -> bool) : bool := negb (nullable r) && forallb (fun c => implb (q c) (negb (firstb A ic r c))) ASCII.
Lemma quiet_none ic r q b c a : quiet ic r q = true -> (c < 128)%N -> q c = true -> match_at A ic r b (c :: a) = None.
Proof.
  unfold quiet. rewrite andb_true_iff, negb_true_iff. intros [HN H] Hc Hq. apply first_none; [exact HN|]. apply negb_true_iff. exact (class_all q _ c H Hc Hq).
Qed.
Definition alnumb (c : char) : bool := a_letter c || a_digit c || (c =? 39)%N || (c =? 45)%N || (c =? 95)%N.
Definition sep (s : char) : Prop := s = 44%N \/ s = 46%N.

(** *** contracted words *)
Definition ascii_up (c : char) : char := if lower_case c then (c - 32)%N else c.
Fixpoint cases_of (s : str) : list str :=
  match s with [] => [[]] | c :: s' => flat_map (fun x => if lower_case c then [c :: x; ascii_up c :: x] else [c :: x]) (cases_of s') end.
Lemma uncapital_cases c d : uncapital d = c -> d = c \/ (lower_case c = true /\ d = ascii_up c).
Proof.
  unfold uncapital. destruct (_ && _)%bool eqn:E; intros <-; [|auto]. right. apply andb_true_iff in E. rewrite !N.leb_le in E. unfold ascii_up, lower_case.
  replace ((97 <=? d + 32) && (d + 32 <=? 122))%N with true by (symmetry; rewrite andb_true_iff, !N.leb_le; lia). split; [reflexivity|lia].
Qed.
Lemma cases_in s : forall x, map uncapital x = s -> In x (cases_of s).
Proof.
  induction s as [|c s IH]; intros x E; [destruct x; [left; reflexivity|discriminate]|]. destruct x as [|d x]; [discriminate|]. cbn [map] in E. injection E as E1 E2. cbn [cases_of]. apply in_flat_map. exists x. split; [apply IH; exact E2|].
  destruct (uncapital_cases c d E1) as [->|[L ->]]; [destruct (lower_case c); left; reflexivity|rewrite L; right; left; reflexivity].
Qed.
Definition CL : list str := flat_map cases_of contracted.
Lemma clitic_in c : In (map uncapital c) contracted -> In c CL.
Proof. intros H. unfold CL. apply in_flat_map. exists (map uncapital c). split; [exact H|]. apply cases_in. reflexivity. Qed.
Lemma clitic_all (p : str -> bool) c : forallb p CL = true -> In (map uncapital c) contracted -> p c = true.
Proof. intros H Hc. rewrite forallb_forall in H. apply H. apply clitic_in. exact Hc. Qed.

(** *** words skipped by a rule *)
Section Skip.
  Context (ic : bool) (r : re) (t : template).
  Notation sr := (sr A ic r t).
  Context (HL : quiet ic r alnumb = true).
  Lemma HN : nullable r = false.
  Proof. unfold quiet in HL. apply andb_true_iff in HL. apply negb_true_iff. tauto. Qed.
  Lemma skip_quiet p b a : Forall (fun c => alnumb c = true) p -> sr b (p ++ a) = p ++ sr (rev p ++ b) a.
  Proof.
    intros H. apply sr_skips; [apply HN|]. intros x z -> Hz. destruct z as [|c z]; [congruence|]. cbn [app]. apply (quiet_none ic r alnumb); [exact HL| |]; rewrite Forall_app in H; destruct H as [_ H]; inversion H; subst; [|assumption].
    unfold alnumb in *. rewrite !orb_true_iff in H2. destruct H2 as [[[[H2|H2]|H2]|H2]|H2]; [apply letter_lt; exact H2|apply digit_lt; exact H2|apply N.eqb_eq in H2; subst; reflexivity|apply N.eqb_eq in H2; subst; reflexivity|apply N.eqb_eq in H2; subst; reflexivity].
  Qed.
  Lemma letters_quiet p : Forall (fun c => a_letter c = true) p -> Forall (fun c => alnumb c = true) p.
  Proof. apply Forall_impl. intros c H. unfold alnumb. rewrite H. reflexivity. Qed.
  Lemma digits_quiet p : Forall (fun c => a_digit c = true) p -> Forall (fun c => alnumb c = true) p.
  Proof. apply Forall_impl. intros c H. unfold alnumb. rewrite H, orb_true_r. reflexivity. Qed.
  Lemma clitic_quiet c : In (map uncapital c) contracted -> Forall (fun c => alnumb c = true) c.
  Proof. intros H. apply Forall_forall. apply forallb_forall. apply (clitic_all (forallb alnumb)); [vm_compute; reflexivity|exact H]. Qed.
  Context (HD : forall d1 d2 s b a, In d1 DG -> In d2 DG -> sep s -> match_at A ic r (d1 :: b) (s :: d2 :: a) = None).
  Lemma number_head n : number n -> exists d n', n = d :: n' /\ a_digit d = true.
  Proof. intros [d [H1 H2]|d s n' [H1 H2] _ _]; (destruct d as [|c d]; [congruence|]; inversion H2; subst; eauto). cbn [app]. eauto. Qed.
  Lemma number_last n : number n -> exists d n', rev n = d :: n' /\ a_digit d = true.
  Proof.
    induction 1 as [d [H1 H2]|d s n' [H1 H2] Hs Hn IH].
    - destruct d as [|c d _] using rev_ind; [congruence|]. rewrite rev_app_distr. apply Forall_app in H2. destruct H2 as [_ H2]. inversion H2; subst. cbn. eauto.
    - destruct IH as (c & n2 & E & Hc). rewrite rev_app_distr. cbn [rev]. rewrite E. cbn [app]. eauto.
  Qed.
  Lemma number_skip n : number n -> forall b a, sr b (n ++ a) = n ++ sr (rev n ++ b) a.
  Proof.
    induction 1 as [d [H1 H2]|d s n [H1 H2] Hs Hn IH]; intros b a; [apply skip_quiet, digits_quiet; exact H2|].
    rewrite <- app_assoc. rewrite skip_quiet by (apply digits_quiet; exact H2). cbn [app]. destruct (number_head n Hn) as (c & n' & E & Hc). rewrite E at 1. cbn [app].
    rewrite sr_skip; [|apply HN|].
    - replace (c :: n' ++ a) with (n ++ a) by (rewrite E; reflexivity). rewrite IH. rewrite <- app_assoc. cbn [app]. rewrite rev_app_distr. cbn [rev]. rewrite <- !app_assoc. reflexivity.
    - destruct d as [|d0 d _] using rev_ind; [congruence|]. rewrite rev_app_distr. cbn [rev app]. apply Forall_app in H2. destruct H2 as [_ H2]. inversion H2; subst. apply HD; [apply digit_in; assumption|apply digit_in; assumption|exact Hs].
  Qed.
  Lemma hyphens_quiet q : Forall (fun w => letters w /\ ~ is_cannot w) q -> Forall (fun c => alnumb c = true) (hyphens q).
  Proof. induction 1 as [|w0 q [[_ Hw] _] _ IH]; [constructor|]. cbn [hyphens flat_map]. rewrite !Forall_app. split; [split; [apply letters_quiet; exact Hw|repeat constructor]|exact IH]. Qed.
  Lemma key_quiet k : keyp k -> Forall (fun c => alnumb c = true) k.
  Proof.
    intros [n ->]. unfold protect_key. rewrite !Forall_app. split; [repeat constructor|]. split; [|repeat constructor]. apply digits_quiet. eapply Forall_impl; [|apply str_of_nat_digits]. intros c Hc. cbn beta in Hc. unfold a_digit. rewrite andb_true_iff, !N.leb_le. lia.
  Qed.
  Lemma core_skip c : core_ok c -> forall b a, sr b (ctext c ++ a) = ctext c ++ sr (rev (ctext c) ++ b) a.
  Proof.
    destruct c as [p|n|p c|q p|u]; cbn [core_ok SEnglish.core_ok ctext]; intros H b a.
    - apply skip_quiet, letters_quiet, H.
    - apply number_skip. exact H.
    - destruct H as ([_ Hp] & _ & Hc). apply skip_quiet. apply Forall_app. split; [apply letters_quiet; exact Hp|apply clitic_quiet; exact Hc].
    - destruct H as (_ & Hq & [_ Hp] & _). apply skip_quiet. apply Forall_app. split; [apply hyphens_quiet; exact Hq|apply letters_quiet; exact Hp].
    - apply skip_quiet, key_quiet, H.
  Qed.
End Skip.

(** *** words between the stages *)
Inductive tl := TNone | TMark (m : char) | TKept.
Inductive mw := MC (c : core) (t : tl) | MSym (s : str).
Definition tstr (t : tl) : str := match t with TNone => [] | TMark m => [m] | TKept => nsd end.
Definition mstr (x : mw) : str := match x with MC c t => ctext c ++ tstr t | MSym s => s end.

(** *** the rules *)
Definition no_rule : rule := mk Eps false [].
Definition ns (k : nat) : rule := nth k re_no_split no_rule.
Definition sg (k : nat) : rule := nth k re_segment_off no_rule.
Definition rs (k : nat) : rule := nth k re_restore no_rule.
Definition ra (k : nat) : rule := nth k re_reattach no_rule.
Ltac digits2 := intros d1 d2 s b a H1 H2 [-> | ->]; cbn in H1, H2; repeat (destruct H1 as [<-|H1]; [repeat (destruct H2 as [<-|H2]; [reflexivity|]); contradiction H2|]); contradiction H1.
Lemma D_dot1 : forall d1 d2 s b a, In d1 DG -> In d2 DG -> sep s -> match_at A (r_ic (ns 0)) (r_pat (ns 0)) (d1 :: b) (s :: d2 :: a) = None.
Proof. digits2. Qed.
Lemma D_dot2 : forall d1 d2 s b a, In d1 DG -> In d2 DG -> sep s -> match_at A (r_ic (ns 1)) (r_pat (ns 1)) (d1 :: b) (s :: d2 :: a) = None.
Proof. digits2. Qed.
Lemma D_dot3 : forall d1 d2 s b a, In d1 DG -> In d2 DG -> sep s -> match_at A (r_ic (ns 2)) (r_pat (ns 2)) (d1 :: b) (s :: d2 :: a) = None.
Proof. digits2. Qed.
Lemma D_always : forall d1 d2 s b a, In d1 DG -> In d2 DG -> sep s -> match_at A (r_ic re_always_split) (r_pat re_always_split) (d1 :: b) (s :: d2 :: a) = None.
Proof. digits2. Qed.
