(** Model of the predictions of scrappybara/syntax/models.py and of the batches in which syntax/parser.py and tagger.py ask for them. *)
From Coq Require Import Ascii String.
From Coq Require Import List NArith ZArith Arith Bool.
From Verif Require Import PyBase Regex MUtils MTree MVector MParser.
Import ListNotations.
Local Open Scope nat_scope.

Section Argmax.
  (** [le] is the comparison of numbers; a value that is not below itself is not a number *)
  Context {F : Type} (le : F -> F -> bool).
  (** np.argmax as called at syntax/models.py:98, 140, 199: numpy keeps a best value and replaces it by a value that is not below it; it stops
      at the first value that is not a number; no value at all raises ValueError *)
  Fixpoint argmax_from (best : F) (ibest i : nat) (l : list F) : nat :=
    match l with
    | [] => ibest
    | x :: l' => if le x best then argmax_from best ibest (S i) l' else if le x x then argmax_from x i (S i) l' else i
    end.
  Definition argmax (row : list F) : res nat :=
    match row with
    | [] => Err ValueError
    | x :: l => Ok (if le x x then argmax_from x 0 1 l else 0)
    end.
End Argmax.

Section Batches.
  Context (V F : Type) (v0 : V) (U : udb) (le : F -> F -> bool).
  (** The predict methods of the three Keras models, called with one array for each input (syntax/models.py:97, 139, 196-198): for each
      sentence of the batch the rows of probabilities, or the row of a transition; or an exception. What they compute is in MNet.v *)
  Record networks := {
    net_tags : list (list (list nat)) -> list (list (list V)) -> res (list (list (list F)));
    net_deps : list (list nat) -> list (list (list nat)) -> list (list (list V)) -> res (list (list (list F)));
    net_trans : list (list nat) -> list (list nat) -> list (list (list nat)) -> list (list (list V)) -> list (list bool) -> list (list bool) -> res (list (list F))
  }.
  Context (N : networks) (cs : charset) (ws : wordset V).

  (** syntax/models.py:96-98 [PTagsModel.predict] *)
  Definition predict_tags (chars : list (list (list nat))) (words : list (list (list V))) : res (list (list nat)) :=
    let! seqs := net_tags N chars words in
    mapM (mapM (argmax le)) seqs.
  (** syntax/models.py:138-140 [PDepsModel.predict] *)
  Definition predict_deps (tag_codes : list (list nat)) (chars : list (list (list nat))) (words : list (list (list V))) : res (list (list nat)) :=
    let! seqs := net_deps N tag_codes chars words in
    mapM (mapM (argmax le)) seqs.
  (** syntax/models.py:195-199 [TransModel.predict] *)
  Definition predict_trans (tag_codes dep_codes : list (list nat)) (chars : list (list (list nat))) (words : list (list (list V)))
      (masks_1 masks_2 : list (list bool)) : res (list nat) :=
    let! batch_probas := net_trans N tag_codes dep_codes chars words masks_1 masks_2 in
    mapM (argmax le) batch_probas.

  (** syntax/parser.py:113-119: the parses of a batch. zip( *[]) of an empty batch raises ValueError *)
  Definition batch_items (batch : list (mats V)) : res (list (item V)) :=
    match batch with
    | [] => Err ValueError
    | _ =>
      let chars := map m_chars batch in
      let words := map m_words batch in
      let! tag_codes := predict_tags chars words in
      let! dep_codes := predict_deps tag_codes chars words in
      mapM (fun '(idx, d) =>
        let! t := of_option IndexError (nth_error tag_codes idx) in
        let! de := of_option IndexError (nth_error dep_codes idx) in
        let! p := init_parse (m_length d) t de in
        Ok {| i_tag_codes := t; i_dep_codes := de; i_mats := d; i_parse := p |}) (enumerate batch)
    end.

  (** syntax/parser.py:66-70 [mats]: the masks *)
  Definition item_masks (i : item V) : res (list bool * list bool) :=
    let! s := stack_top (i_parse i) in
    let! b := buffer_first (i_parse i) in
    make_masks (s + 1) (b + 1).
  (** syntax/parser.py:72-82 on the parse at position [pos], in place *)
  Definition register_at (items : list (item V)) (pos code : nat) : res (list (item V)) :=
    let! i := of_option IndexError (nth_error items pos) in
    let! p' := register_code (i_parse i) code in
    Ok (firstn pos items ++ {| i_tag_codes := i_tag_codes i; i_dep_codes := i_dep_codes i; i_mats := i_mats i; i_parse := p' |} :: skipn (S pos) items).
  (** syntax/parser.py:141-146 [__predict_transitions]; the parses of the batch are designated by their positions *)
  Definition predict_transitions (items : list (item V)) (batch : list nat) : res (list (item V)) :=
    match batch with
    | [] => Err ValueError
    | _ =>
      let! parses := mapM (fun pos => of_option IndexError (nth_error items pos)) batch in
      let! masks := mapM item_masks parses in
      let! predictions := predict_trans (map i_tag_codes parses) (map i_dep_codes parses) (map (fun i => m_chars (i_mats i)) parses)
                                        (map (fun i => m_words (i_mats i)) parses) (map fst masks) (map snd masks) in
      foldM (fun its '(idx, code) => let! pos := of_option IndexError (nth_error batch idx) in register_at its pos code) items (enumerate predictions)
    end.
  (** syntax/parser.py:121-126 *)
  Fixpoint batched_loop (fuel : nat) (batch_size : Z) (items : list (item V)) : res (list (item V)) :=
    match incomplete V items with
    | [] => Ok items
    | todo =>
      match fuel with
      | O => Err OutOfFuel
      | S f =>
        let! batches := make_batches todo batch_size in
        let! items' := foldM predict_transitions items batches in
        batched_loop f batch_size items'
      end
    end.
  (** syntax/parser.py:108-130 [__call__] *)
  Definition batched_call (nb_processes batch_size : Z) (token_lists : list (list str)) : res (list (list tag) * list (option tree)) :=
    let! ms := run_multithreads (vectorize_sentence V v0 U cs ws) token_lists nb_processes in
    let! batches := make_batches ms batch_size in
    let! item_lists := mapM batch_items batches in
    let! done := batched_loop (2 * PADDED_SENT_LENGTH) batch_size (concat item_lists) in
    let all_tags := map (fun i => p_tags (i_parse i)) done in
    let! all_trees := run_multithreads (fun i => build_tree (i_parse i)) done nb_processes in
    Ok (all_tags, all_trees).
  (** syntax/tagger.py:20-24 [tag] *)
  Definition batched_tag (token_lists : list (list str)) : res (list (list tag)) :=
    let! data := mapM (vectorize_sentence V v0 U cs ws) token_lists in
    match data with
    | [] => Err ValueError
    | _ =>
      let! tag_codes := predict_tags (map m_chars data) (map m_words data) in
      mapM (fun '(idx, d) =>
        let! codes := of_option IndexError (nth_error tag_codes idx) in
        mapM tag_of_code (slice (Some 1%Z) (Some (Z.of_nat (m_length d) + 1)%Z) codes)) (enumerate data)
    end.
End Batches.
Arguments net_tags {V F} n.
Arguments net_deps {V F} n.
Arguments net_trans {V F} n.
