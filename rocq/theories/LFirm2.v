(** Proofs about names with an ampersand: the rules that join their pieces, on a whole text. *)
From Coq Require Import Ascii String.
From Coq Require Import List NArith ZArith Arith Bool Lia.
From Verif Require Import PyBase Regex MTokenizer STok SEnglish LBase LUdb LRegex LSub LTok LTokWords LAscii LRun LEnglish LEnglish2 LEnglish3 SFirm LFirm.
Import ListNotations.
Local Open Scope nat_scope.

(** the text of an item before the rule number k *)
Definition gk (k : nat) (i : item) : str :=
  match i with
  | Word p => p | And => [38%N] | One x => [x]
  | Two x y => if 3 <=? k then [x; 38; y]%N else [x; 32; 38; 32; y]%N
  | Before x y z => if 1 <=? k then [x; y; 38; z]%N else [x; 32; y; 32; 38; 32; z]%N
  | After x y z => if 2 <=? k then [x; 38; y; z]%N else [x; 32; 38; 32; y; 32; z]%N
  end.
Definition tailk (k : nat) (is : list item) : str := match is with [] => [] | _ => 32%N :: join [32%N] (map (gk k) is) end.
Lemma joink k i is : join [32%N] (map (gk k) (i :: is)) = gk k i ++ tailk k is.
Proof. destruct is; cbn; [rewrite app_nil_r; reflexivity|reflexivity]. Qed.
Definition edge (b : str) : Prop := b = [] \/ exists b', b = 32%N :: b'.
Definition shape (X : str) : Prop :=
  X = [] \/ (exists c Y, X = 32%N :: c :: Y /\ a_letter c = true /\ upper_case c = false) \/ (exists c d Y, X = 32%N :: c :: d :: Y /\ a_letter c = true /\ a_letter d = true).
Lemma upper_letter c : upper_case c = true -> a_letter c = true.
Proof. intros H. unfold a_letter. rewrite H. reflexivity. Qed.
Lemma bd_in x y b a : a_letter x = true -> a_letter y = true -> bd (x :: b) (y :: a) = false.
Proof. intros Hx Hy. unfold at_word_boundary. rewrite (letter_word x Hx), (letter_word y Hy). reflexivity. Qed.
Lemma bd_start x b a : a_letter x = true -> edge b -> bd b (x :: a) = true.
Proof. intros Hx [->|(b' & ->)]; unfold at_word_boundary; rewrite (letter_word x Hx); reflexivity. Qed.
Lemma bd_end x b a : a_letter x = true -> edge a -> bd (x :: b) a = true.
Proof. intros Hx [->|(b' & ->)]; unfold at_word_boundary; rewrite (letter_word x Hx); reflexivity. Qed.
Lemma shape_edge X : shape X -> edge X.
Proof. intros [->|[(c & Y & -> & _)|(c & d & Y & -> & _)]]; [left; reflexivity|right; eauto|right; eauto]. Qed.
Lemma tail_edge k is : edge (tailk k is).
Proof. destruct is; [left; reflexivity|right; eexists; reflexivity]. Qed.
Lemma next_shape k i rest : firm (i :: rest) -> match i with Word _ | And => False | _ => True end -> shape (tailk k rest).
Proof.
  intros H Hi. inversion H as [|? ? Ho Hf Hr]; subst. destruct rest as [|j rest]; [left; reflexivity|]. right. inversion Hr as [|? ? Hj _ _]; subst.
  assert (exists p, j = Word p) as (p & ->). { destruct i; try contradiction; destruct j; try contradiction; eexists; reflexivity. }
  destruct Hj as ([Hn Hl] & _ & Hc). unfold tailk. rewrite joink. cbn [gk]. destruct p as [|c p]; [congruence|]. inversion Hl as [|? ? L1 L2]; subst. cbn [app]. destruct p as [|d p].
  - left. exists c, (tailk k rest). split; [reflexivity|]. split; [exact L1|]. specialize (Hc c eq_refl). unfold capital in Hc. destruct (upper_case c); [exfalso; apply Hc; reflexivity|reflexivity].
  - right. inversion L2; subst. exists c, d, (p ++ tailk k rest). split; [reflexivity|]. auto.
Qed.
(** *** where no match starts *)
Lemma start k b a st : k < 3 -> match_at A (r_ic (ra k)) (r_pat (ra k)) b a = Some st -> exists x s a', a = x :: s :: a' /\ bd b a = true /\ upper_case x = true /\ u_space A s = true.
Proof.
  intros Hk E. destruct k as [|[|[|k]]]; [| | |lia].
  - apply inv0 in E. destruct E as (x & s1 & y & s2 & s3 & z & a' & E & B & Hx & Hs & _). exists x, s1, (y :: s2 :: 38%N :: s3 :: z :: a'). auto.
  - apply inv1 in E. destruct E as (x & s1 & s2 & y & s3 & z & a' & E & B & Hx & Hs & _). exists x, s1, (38%N :: s2 :: y :: s3 :: z :: a'). auto.
  - apply inv2 in E. destruct E as (x & s1 & s2 & y & a' & E & B & Hx & Hs & _). exists x, s1, (38%N :: s2 :: y :: a'). auto.
Qed.
Lemma null k : k < 3 -> nullable (r_pat (ra k)) = false.
Proof. intros Hk. destruct k as [|[|[|k]]]; [reflexivity|reflexivity|reflexivity|lia]. Qed.
Notation srk k := (sr A (r_ic (ra k)) (r_pat (ra k)) (r_rep (ra k))).
Lemma not_upper k b c a : k < 3 -> upper_case c = false -> srk k b (c :: a) = c :: srk k (c :: b) a.
Proof.
  intros Hk Hc. apply sr_skip; [apply null; exact Hk|]. destruct (match_at _ _ _ _ _) as [st|] eqn:E; [|reflexivity]. exfalso. apply start in E; [|exact Hk]. destruct E as (x & s & a' & E & _ & Hx & _). injection E as -> _. congruence.
Qed.
Lemma word_skip k b p X : k < 3 -> item_ok (Word p) -> edge X -> srk k b (p ++ X) = p ++ srk k (rev p ++ b) X.
Proof.
  intros Hk ([Hn Hl] & _ & Hc) HX. apply sr_skips; [apply null; exact Hk|]. intros x z E Hz. destruct z as [|c z]; [congruence|]. cbn [app].
  destruct (match_at A (r_ic (ra k)) (r_pat (ra k)) (rev x ++ b) (c :: z ++ X)) as [st|] eqn:EM; [|reflexivity]. exfalso. apply start in EM; [|exact Hk]. destruct EM as (c1 & s & a' & E1 & B & Hu & Hs). injection E1 as <- E1.
  subst p. apply Forall_app in Hl. destruct Hl as [L1 L2]. inversion L2 as [|? ? Lc Lz]; subst. destruct x as [|d x _] using rev_ind.
  - destruct z as [|e z]; [exact (Hc c eq_refl Hu)|]. injection E1 as <- _. inversion Lz; subst. rewrite (letter_sp e) in Hs by assumption. discriminate Hs.
  - apply Forall_app in L1. destruct L1 as [_ L1]. inversion L1; subst. rewrite rev_app_distr in B. cbn [rev app] in B. rewrite bd_in in B by assumption. discriminate B.
Qed.
Ltac bad := match goal with
  | H : upper_case 38%N = true |- _ => discriminate H
  | H : upper_case 32%N = true |- _ => discriminate H
  | H : u_space A 38%N = true |- _ => discriminate H
  | H : a_letter 38%N = true |- _ => discriminate H
  | H : upper_case ?c = true, G : upper_case ?c = false |- _ => rewrite H in G; discriminate G
  | H : u_space A ?c = true, G : upper_case ?c = true |- _ => rewrite (letter_sp c (upper_letter c G)) in H; discriminate H
  | H : u_space A ?c = true, G : a_letter ?c = true |- _ => rewrite (letter_sp c G) in H; discriminate H
  | H : bd (?x :: _) (?y :: _) = true, G1 : a_letter ?x = true, G2 : a_letter ?y = true |- _ => rewrite (bd_in x y _ _ G1 G2) in H; discriminate H
  end.
Ltac parts E := repeat match type of E with
  | exists _, _ => let x := fresh "v" in destruct E as [x E] end; let E1 := fresh "EQ" in destruct E as [E1 E]; repeat match type of E with _ /\ _ => let H := fresh "P" in destruct E as [H E] end;
  inversion E1; subst; try bad.
Ltac none inv SH := match goal with |- match_at ?U ?ic ?r ?b ?a = None =>
  let E := fresh "E" in let c := fresh "c" in let d := fresh "d" in let Y := fresh "Y" in let L1 := fresh "L" in let L2 := fresh "L" in
  destruct (match_at U ic r b a) as [?|] eqn:E; [|reflexivity]; exfalso; apply inv in E; clear - E SH; destruct SH as (? & ? & ? & SH); destruct SH as [->|[(c & Y & -> & L1 & L2)|(c & d & Y & -> & L1 & L2)]]; parts E end.
Ltac skip inv SH := first [rewrite not_upper; [|lia|reflexivity] | rewrite sr_skip; [|reflexivity|none inv SH]].
Definition facts (x y z : char) (X : str) : Prop := upper_case x = true /\ upper_case y = true /\ upper_case z = true /\ shape X.
Lemma one_step k b x X : k < 3 -> upper_case x = true -> shape X -> srk k b (x :: X) = x :: srk k (x :: b) X.
Proof.
  intros Hk Hx HX. assert (SH : facts x x x X) by (split; [|split; [|split]]; assumption). destruct k as [|[|[|k]]]; [| | |lia]; rewrite sr_skip; try reflexivity.
  - none inv0 SH.
  - none inv1 SH.
  - none inv2 SH.
Qed.
Lemma step0 b i rest : edge b -> firm (i :: rest) -> exists b', srk 0 b (gk 0 i ++ tailk 0 rest) = gk 1 i ++ srk 0 b' (tailk 0 rest).
Proof.
  intros Hb H. pose proof (next_shape 0 i rest H) as SX. inversion H as [|? ? Ho _ _]; subst. pose proof (tail_edge 0 rest) as TE. set (X := tailk 0 rest) in *. clearbody X. destruct i as [p| |x|x y|x y z|x y z]; cbn [gk Nat.leb app].
  - eexists. apply word_skip; [lia|exact Ho|exact TE].
  - eexists. apply not_upper; [lia|reflexivity].
  - eexists. apply one_step; [lia|exact Ho|exact (SX I)].
  - destruct Ho as [Hx Hy]. assert (SH : facts x y y X) by (split; [|split; [|split]]; try assumption; exact (SX I)). eexists. do 5 skip inv0 SH. reflexivity.
  - destruct Ho as (Hx & Hy & Hz). specialize (SX I). eexists. erewrite sr_match; [|reflexivity|apply hit0; try assumption; [apply bd_start; [apply upper_letter; exact Hx|exact Hb]|apply bd_end; [apply upper_letter; exact Hz|exact TE]]]. reflexivity.
  - destruct Ho as (Hx & Hy & Hz). assert (SH : facts x y z X) by (split; [|split; [|split]]; try assumption; exact (SX I)). eexists. do 7 skip inv0 SH. reflexivity.
Qed.
Lemma step1 b i rest : edge b -> firm (i :: rest) -> exists b', srk 1 b (gk 1 i ++ tailk 1 rest) = gk 2 i ++ srk 1 b' (tailk 1 rest).
Proof.
  intros Hb H. pose proof (next_shape 1 i rest H) as SX. inversion H as [|? ? Ho _ _]; subst. pose proof (tail_edge 1 rest) as TE. set (X := tailk 1 rest) in *. clearbody X. destruct i as [p| |x|x y|x y z|x y z]; cbn [gk Nat.leb app].
  - eexists. apply word_skip; [lia|exact Ho|exact TE].
  - eexists. apply not_upper; [lia|reflexivity].
  - eexists. apply one_step; [lia|exact Ho|exact (SX I)].
  - destruct Ho as [Hx Hy]. assert (SH : facts x y y X) by (split; [|split; [|split]]; try assumption; exact (SX I)). eexists. do 5 skip inv1 SH. reflexivity.
  - destruct Ho as (Hx & Hy & Hz). assert (SH : facts x y z X) by (split; [|split; [|split]]; try assumption; exact (SX I)). eexists. do 4 skip inv1 SH. reflexivity.
  - destruct Ho as (Hx & Hy & Hz). specialize (SX I). eexists. erewrite sr_match; [|reflexivity|apply hit1; try assumption; [apply bd_start; [apply upper_letter; exact Hx|exact Hb]|apply bd_end; [apply upper_letter; exact Hz|exact TE]]]. reflexivity.
Qed.
Lemma step2 b i rest : edge b -> firm (i :: rest) -> exists b', srk 2 b (gk 2 i ++ tailk 2 rest) = gk 3 i ++ srk 2 b' (tailk 2 rest).
Proof.
  intros Hb H. pose proof (next_shape 2 i rest H) as SX. inversion H as [|? ? Ho _ _]; subst. pose proof (tail_edge 2 rest) as TE. set (X := tailk 2 rest) in *. clearbody X. destruct i as [p| |x|x y|x y z|x y z]; cbn [gk Nat.leb app].
  - eexists. apply word_skip; [lia|exact Ho|exact TE].
  - eexists. apply not_upper; [lia|reflexivity].
  - eexists. apply one_step; [lia|exact Ho|exact (SX I)].
  - destruct Ho as (Hx & Hy). specialize (SX I). eexists. erewrite sr_match; [|reflexivity|apply hit2; try assumption; [apply bd_start; [apply upper_letter; exact Hx|exact Hb]|apply bd_end; [apply upper_letter; exact Hy|exact TE]]]. reflexivity.
  - destruct Ho as (Hx & Hy & Hz). assert (SH : facts x y z X) by (split; [|split; [|split]]; try assumption; exact (SX I)). eexists. do 4 skip inv2 SH. reflexivity.
  - destruct Ho as (Hx & Hy & Hz). assert (SH : facts x y z X) by (split; [|split; [|split]]; try assumption; exact (SX I)). eexists. do 4 skip inv2 SH. reflexivity.
Qed.
Lemma rule_k k is : k < 3 -> firm is -> apply_rule A (join [32%N] (map (gk k) is)) (ra k) = join [32%N] (map (gk (S k)) is).
Proof.
  intros Hk H. unfold apply_rule. rewrite sub_sr. assert (G : forall b, edge b -> srk k b (join [32%N] (map (gk k) is)) = join [32%N] (map (gk (S k)) is)); [|apply G; left; reflexivity].
  induction is as [|i rest IH]; intros b Hb; [apply sr_nil; apply null; exact Hk|].
  rewrite !joink. assert (exists b', srk k b (gk k i ++ tailk k rest) = gk (S k) i ++ srk k b' (tailk k rest)) as (b' & E). { destruct k as [|[|[|k]]]; [exact (step0 b i rest Hb H)|exact (step1 b i rest Hb H)|exact (step2 b i rest Hb H)|lia]. }
  rewrite E. f_equal. inversion H as [|? ? _ _ Hr]; subst. destruct rest as [|j rest]; [apply sr_nil; apply null; exact Hk|]. unfold tailk. rewrite not_upper by (exact Hk || reflexivity). f_equal. apply IH; [exact Hr|right; eexists; reflexivity].
Qed.
