(** C96: which past participles are taken back to their verb. *)
From Coq Require Import Ascii String.
From Coq Require Import List NArith ZArith Arith Bool Lia Permutation.
From Verif Require Import PyBase Regex MUtils MTree MNgram MLangModel MNormal SNormal SRound SLangModel LBase SUtils LText LUdb LRegex LLangModel LNormal LNormal2 LNormal3 LNormal4 LNormal5 LNormal7 LRound PNormal PLemma.
Import ListNotations.
Local Open Scope nat_scope.

(** A verb of three letters or more, in lower case and without irregular participle, and the participle the inflector makes of it. The
    participle is no special form and, with or without prefix, in no table of irregular forms; the language model has counted the verb,
    or its part after the prefix; no other lemma of which the participle would be a regular inflection ends an n-gram of the model.
    Then the lemmatizer gives back the verb and the suffix of the past, except for lost verbs. *)
Theorem C96_round_trip : forall (U : udb) (P L : Type) (leP : P -> P -> bool) (leL : L -> L -> bool) zero ninf float_of_str (log : P -> res L) min_counts files m lx
    (tokenize : option str -> res (list str)) no_tokens verb participle,
  udb_ok U -> total_order leL -> antisym leL -> (forall x, leL ninf x = true) -> (forall p y, log p = Ok y -> leL y ninf = false) ->
  load_lm U P L leP float_of_str log min_counts files = Ok m -> Permutation PREFIXES (lx_prefixes lx) -> tokenize None = Ok no_tokens ->
  Forall (fun c => u_lower U c = [c] /\ u_space U c = false) verb -> 3 <= length verb -> dget str_eqb verb (lx_lemma_pp lx) = None ->
  past_participle P L leL zero ninf tokenize m (lx_lemma_pp lx) verb = Ok participle ->
  let attested x := lm_contains P L m x = true in let known x := has_ngram P L zero ninf m x 1 = true in
  (forall l s, ~ is_special VERB participle l s) ->
  (forall p b l s, is_prefix (map lit prefix_words) p -> participle = p ++ b -> ~ is_irregular lx VERB b l s) ->
  known verb \/ (exists p b, reads_prefix participle p /\ verb = p ++ b /\ 3 <= length b /\ known b) ->
  (forall l s p b, inflected VERB participle l s -> l <> verb -> is_prefix (map lit prefix_words) p -> l = p ++ b -> unheard attested b) ->
  (lemmatize U P L leL zero ninf m lx participle VERB = Ok (verb, Some PAST) <-> ~ lost verb).
Proof.
  intros U P L leP leL zero ninf fl lg mcs files m lx tokenize tn verb r OK H1 AL H2 H3 H4 HP Htn Hl Hlen Ht Hr attested known Hs Hi Hk Hu.
  assert (EV : exists q x y z, verb = q ++ [x; y; z]).
  { rewrite <- (rev_involutive verb) in *. destruct (rev verb) as [|z [|y [|x q]]]; try (cbn in Hlen; lia). exists (rev q), x, y, z. cbn [rev]. rewrite <- !app_assoc. reflexivity. }
  destruct EV as (q & x & y & z & EV). rewrite EV in Ht, Hr. pose proof (pp_made P L leL zero ninf tokenize m H1 AL tn Htn _ q x y z r Ht Hr) as M.
  assert (Fr : Forall (fun c => u_lower U c = [c] /\ u_space U c = false) r).
  { assert (Fl : forall c, (97 <= c <= 122)%N -> u_lower U c = [c] /\ u_space U c = false).
    { intros c Hc. split; [rewrite (ok_lower_ascii U OK) by lia; unfold ascii_lower, is_upper; destruct (N.leb_spec 65 c), (N.leb_spec c 90); cbn [andb]; try reflexivity; lia|]. rewrite (ok_space U OK) by lia. unfold ascii_space. repeat match goal with |- context [N.eqb ?a ?b] => destruct (N.eqb_spec a b); [lia|] | |- context [N.leb ?a ?b] => destruct (N.leb_spec a b); try lia end; reflexivity. }
    rewrite EV in Hl. apply Forall_app in Hl. destruct Hl as [Hq Hl]. inversion_clear Hl as [|? ? Hx Hl']. inversion_clear Hl' as [|? ? Hy Hl]. inversion_clear Hl as [|? ? Hz _].
    destruct M as [_ _ _ ->|_ _ ->|_ _ ->|_ _ ->|_ _ ->]; (apply Forall_app; split; [exact Hq|]); cbn; repeat (apply Forall_cons; [first [assumption|apply Fl; lia]|]); apply Forall_nil. }
  assert (El : lower U r = r).
  { clear - Fr. unfold lower. induction Fr as [|c r [Hc _] _ IH]; [reflexivity|]. cbn. rewrite Hc, IH. reflexivity. }
  pose proof (C94_undone U P L leP leL zero ninf fl lg mcs files m lx r VERB verb PAST OK H1 H2 H3 H4 HP) as C. cbv zeta in C. rewrite El in C. fold attested known in C. rewrite C.
  - rewrite hidden_rev, lost_rev, EV. rewrite (made_lost _ _ q x y z r M). reflexivity.
  - eapply Forall_impl; [|exact Fr]. cbn. intros c Hc. apply Hc.
  - exact Hs.
  - exact Hi.
  - rewrite EV. apply made_inflected. exact M.
  - exact Hk.
  - exact Hu.
Qed.
Print Assumptions C96_round_trip.

(** a verb and its participle, with the hypotheses; verbs of the other kinds; a lost verb *)
Lemma p_forms l s : inflected VERB (lit "stopped") l s -> In l (map lit ["stop"; "stopp"; "stoppe"]%string).
Proof.
  intros H. apply inflected_rev in H. change (rev (lit "stopped")) with (rev (lit "ed") ++ rev (lit "stopp")) in H. assert (G : In (rev l) (map (fun x => rev (lit x)) ["stop"; "stopp"; "stoppe"]%string)).
  { remember (rev l) as rl eqn:El. clear El. destruct H as [y n old new s H Hn Er|y d n old new s H Hd Hn Er|y u d old s H Hu Hd Er]; [entries H; injection H as <- <- <- <-|entries H; injection H as <- <- <- <-|entries H; injection H as <- <-]; lits; try discriminate Er; injection Er; intros; subst; cbn; auto. all: discriminate. }
  rewrite <- (rev_involutive l). apply in_map_iff in G. destruct G as (x & <- & Hx). rewrite rev_involutive. apply in_map. exact Hx.
Qed.
Definition w_participle (m : lm Z (option Z)) (w : string) := past_participle Z (option Z) w_leL 0%Z None (fun _ => Ok [[]]) m (lx_lemma_pp w_lx) (lit w).
Example C96_witness :
  w_participle w_lm "stop" = Ok (lit "stopped") /\ dget str_eqb (lit "stop") (lx_lemma_pp w_lx) = None /\
  (forall l s, ~ is_special VERB (lit "stopped") l s) /\
  (forall p b l s, is_prefix (map lit prefix_words) p -> lit "stopped" = p ++ b -> ~ is_irregular w_lx VERB b l s) /\
  has_ngram Z (option Z) 0%Z None w_lm (lit "stop") 1 = true /\
  (forall l s p b, inflected VERB (lit "stopped") l s -> l <> lit "stop" -> is_prefix (map lit prefix_words) p -> l = p ++ b -> unheard (fun x => lm_contains Z (option Z) w_lm x = true) b) /\
  ~ lost (lit "stop") /\ w_lemmatize (lit "stopped") VERB = Ok (lit "stop", Some PAST) /\
  w_participle h_lm "trick" = Ok (lit "tricked") /\ lost (lit "trick") /\ h_lemmatize (lit "tricked") VERB = Ok (lit "tricked", None) /\
  Forall (fun w => lost (lit w)) ["taxi"; "untie"; "programme"]%string /\ Forall (fun w => ~ lost (lit w)) ["tie"; "carry"; "bake"; "pick"; "free"]%string.
Proof.
  assert (NL : forall w, (forall x, In x ["i"; "ie"; "ick"; "icke"]%string -> match rev (lit w) with _ => endswith (lit w) (lit x) = false \/ length (lit w) < length (lit x) + 2 end) ->
    (forall x v c, rev (lit w) <> 101%N :: c :: c :: v :: x) -> ~ lost (lit w)).
  { intros w A B [(s & c & e & Hs & _ & He & E)|(s & v & c & Hs & _ & _ & E)].
    - destruct (A e He) as [F|F].
      + assert (K : endswith (lit w) (lit e) = true) by (apply endswith_iff; exists (s ++ [c]); rewrite <- app_assoc; exact E). congruence.
      + apply (f_equal (@length _)) in E. rewrite !app_length in E. destruct s; [congruence|]. cbn [length] in E. unfold str, char in *. lia.
    - apply (B (rev s) v c). rewrite E, !rev_app_distr. reflexivity. }
  split; [vm_compute; reflexivity|]. split; [vm_compute; reflexivity|].
  split; [intros l' s' (f & lm & Hin & Ew & _); cbn in Hin; repeat (destruct Hin as [Hin|Hin]; [injection Hin as; subst; discriminate|]); destruct Hin|].
  split.
  { intros p b l' s' _ Ew H. apply (f_equal (@rev _)) in Ew. rewrite rev_app_distr in Ew. destruct H as [(Ht & _)|[(_ & [Hi|Hi] & _)|[(Ht & _)|(Ht & _)]]]; try discriminate Ht.
    - cbn in Hi. destruct Hi as [Hi|[Hi|[]]]; injection Hi as <- <-; discriminate Ew.
    - cbn in Hi. destruct Hi as [Hi|[]]; injection Hi as <- <-; discriminate Ew. }
  split; [vm_compute; reflexivity|].
  split; [intros l' s' p b Hi Hn _ Eb; apply (w_unheard p b l' Eb); apply p_forms in Hi; cbn in Hi; destruct Hi as [Hi|Hi]; [exfalso; apply Hn; rewrite <- Hi; reflexivity|exact Hi]|].
  split; [apply NL; [intros x Hx; cbn in Hx; repeat (destruct Hx as [<-|Hx]; [first [left; vm_compute; reflexivity|right; cbn; lia]|]); destruct Hx|cbn; discriminate]|].
  split; [vm_compute; reflexivity|]. split; [vm_compute; reflexivity|].
  split; [left; exists [116%N], 114%N, "ick"%string; split; [discriminate|split; [cbn; auto 30|split; [cbn; auto|reflexivity]]]|]. split; [vm_compute; reflexivity|].
  split.
  - constructor; [left; exists (lit "ta"), 120%N, "i"%string; split; [discriminate|split; [cbn; auto 30|split; [cbn; auto|reflexivity]]]|].
    constructor; [left; exists (lit "un"), 116%N, "ie"%string; split; [discriminate|split; [cbn; auto 30|split; [cbn; auto|reflexivity]]]|].
    constructor; [right; exists (lit "progr"), 97%N, 109%N; split; [discriminate|split; [cbn; auto 30|split; [cbn; auto 30|reflexivity]]]|constructor].
  - repeat (constructor; [apply NL; [intros x Hx; cbn in Hx; repeat (destruct Hx as [<-|Hx]; [first [left; vm_compute; reflexivity|right; cbn; lia]|]); destruct Hx|cbn; intros; congruence]|]). constructor.
Qed.
Print Assumptions C96_witness.
