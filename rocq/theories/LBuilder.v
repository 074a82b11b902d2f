(** Lemmas about the counts of the builder. *)
From Coq Require Import Ascii String.
From Coq Require Import List NArith ZArith QArith Arith Bool Lia.
From Verif Require Import PyBase Regex MUtils SUtils LBase LText LUtils MNgram SLangModel LNgram MSmooth MBuilder.
Import ListNotations.
Local Open Scope nat_scope.

Section BuilderLemmas.
  Context (U : udb) (OK : udb_ok U) (sentencize : str -> res (list (list str))).
  Lemma add_text_spec M s text : add_text U M s text = Ok (fold_left make_ngram (flat_map (fun n => map spaced (ngrams_of U n text)) (seq 1 M)) s).
  Proof.
    unfold add_text. assert (G : forall l s, Forall (fun n => 1 <= n) l ->
      foldM (fun s n => let! ngrams := extract_ngrams U text n in Ok (fold_left make_ngram ngrams s)) s l =
      Ok (fold_left make_ngram (flat_map (fun n => map spaced (ngrams_of U n text)) l) s)).
    { induction l as [|n l IH]; intros s0 HF; [reflexivity|]. inversion HF; subst. cbn [foldM flat_map]. rewrite extract_ngrams_spec by assumption. cbn [rbind].
      rewrite IH by assumption. rewrite fold_left_app. reflexivity. }
    apply G. apply Forall_forall. intros n Hn. apply in_seq in Hn. lia.
  Qed.
  Lemma add_texts_spec M texts : forall s, foldM (add_text U M) s texts = Ok (fold_left make_ngram (all_ngrams U M texts) s).
  Proof.
    induction texts as [|t ts IH]; intros s; [reflexivity|]. cbn [foldM]. rewrite add_text_spec. cbn [rbind]. rewrite IH. unfold all_ngrams. cbn [flat_map].
    rewrite fold_left_app. reflexivity.
  Qed.
  Lemma count_loop_spec nb M : 1 <= nb -> forall fuel texts s, length texts < fuel ->
    count_loop U sentencize fuel nb M s texts = let! tts := mapM sentencize texts in Ok (fold_left make_ngram (all_ngrams U M tts) s).
  Proof.
    intros Hnb. induction fuel as [|f IH]; intros texts s Hf; [lia|]. cbn [count_loop].
    destruct (Nat.ltb_spec (length (firstn nb texts)) nb) as [Hl|Hl]; rewrite firstn_length in Hl.
    - rewrite firstn_all2 by lia. destruct (mapM sentencize texts) as [tts|e]; [|reflexivity]. cbn [rbind]. rewrite add_texts_spec. reflexivity.
    - replace (mapM sentencize texts) with (mapM sentencize (firstn nb texts ++ skipn nb texts)) by (rewrite firstn_skipn; reflexivity). rewrite mapM_app. destruct (mapM sentencize (firstn nb texts)) as [t1|e]; [|reflexivity]. cbn [rbind].
      rewrite add_texts_spec. cbn [rbind]. rewrite IH by (rewrite skipn_length; lia).
      destruct (mapM sentencize (skipn nb texts)) as [t2|e]; [|reflexivity]. cbn [rbind]. f_equal. unfold all_ngrams. rewrite flat_map_app, fold_left_app. reflexivity.
  Qed.
  Lemma build_store_spec nb M texts : 1 <= nb ->
    build_store U sentencize nb M texts = let! tts := mapM sentencize texts in Ok (store_of (all_ngrams U M tts)).
  Proof. intros H. unfold build_store. rewrite count_loop_spec by (assumption || lia). reflexivity. Qed.
End BuilderLemmas.
