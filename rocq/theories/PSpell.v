(** C95: the spelling chosen by the standardizer. *)
From Coq Require Import Ascii String.
From Coq Require Import List NArith ZArith Arith Bool Lia.
From Verif Require Import PyBase Regex MUtils MTree MNgram MLangModel MNormal SNormal SSpell SLangModel LBase SUtils LText LUdb LRegex LLangModel LNormal LNormal3 LSpell PNormal.
Import ListNotations.
Local Open Scope nat_scope.

(** A token of ASCII characters seen at least five times is returned as it is; for any other the result is the one the specification
    gives, which is unique. *)
Theorem C95_spelling : forall (U : udb) (P L : Type) (leP : P -> P -> bool) (leL : L -> L -> bool) zero ninf float_of_str (log : P -> res L) min_counts files m token,
  udb_ok U -> total_order leL -> (forall x, leL ninf x = true) -> (forall p y, log p = Ok y -> leL y ninf = false) ->
  load_lm U P L leP float_of_str log min_counts files = Ok m ->
  Forall (fun c => (c < 128)%N) token ->
  let attested x := lm_contains P L m x = true in let likelihood := logp P L zero ninf m in
  if has_ngram P L zero ninf m token 5 then standardize U P L leL zero ninf m token = Ok token
  else forall r, standardize U P L leL zero ninf m token = Ok r <-> spelled leL attested likelihood token r.
Proof.
  intros U P L leP leL zero ninf fl lg mcs files m token OK H1 H2 H3 H4 HA attested likelihood. destruct (has_ngram P L zero ninf m token 5) eqn:E; [unfold standardize; rewrite E; reflexivity|].
  assert (BE := fun args => best_ngram_spec U leP fl lg leL zero ninf H1 H3 mcs files m args H4).
  destruct (standardized U OK P L leL zero ninf m BE token HA E) as (r0 & Er & Hr). intros r. split.
  - intros F. rewrite Er in F. injection F as <-. exact Hr.
  - intros F. rewrite Er. f_equal. apply (spelled_fun _ _ _ _ _ _ Hr F).
Qed.
Print Assumptions C95_spelling.
(** colours is not counted, color is: the first family decides; Honour has no attested spelling *)
Example C95_witness :
  (Forall (fun c => (c < 128)%N) (lit "Colours") /\ has_ngram Z (option Z) 0%Z None w_lm (lit "colours") 5 = false) /\
  family (lit "colours") 1 [(lit "color", lit "colors"); (lit "colour", lit "colours")] /\
  preferred w_leL (fun x => lm_contains Z (option Z) w_lm x = true) (logp Z (option Z) 0%Z None w_lm) [(lit "color", lit "colors"); (lit "colour", lit "colours")] (lit "colors") /\
  standardize ascii_udb Z (option Z) w_leL 0%Z None w_lm (lit "colours") = Ok (lit "colors") /\
  family (lit "honour") 1 [(lit "honor", lit "honor"); (lit "honour", lit "honour")] /\
  standardize ascii_udb Z (option Z) w_leL 0%Z None w_lm (lit "honour") = Ok (lit "honour").
Proof.
  split; [split; [repeat (apply Forall_cons; [reflexivity|]); apply Forall_nil|vm_compute; reflexivity]|].
  split; [apply (fam_color (lit "colours") (lit "col") (lit "our") (lit "s")); [reflexivity|split; [cbn; lia|repeat (apply Forall_cons; [reflexivity|]); apply Forall_nil]|exists "our"%string; split; [cbn; auto|reflexivity]|exists "s"%string; split; [cbn; auto|reflexivity]]|].
  split; [exists [], (lit "color"), [(lit "colour", lit "colours")]; split; [reflexivity|split; [vm_compute; reflexivity|split; [|intros y []]]]; intros y [<-|[<-|[]]]; vm_compute; reflexivity|].
  split; [vm_compute; reflexivity|].
  split; [apply (fam_color (lit "honour") (lit "hon") (lit "our") []); [reflexivity|split; [cbn; lia|repeat (apply Forall_cons; [reflexivity|]); apply Forall_nil]|exists "our"%string; split; [cbn; auto|reflexivity]|exists ""%string; split; [cbn; auto|reflexivity]]|vm_compute; reflexivity].
Qed.
Print Assumptions C95_witness.
