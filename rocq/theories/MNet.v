(** Model of the networks of scrappybara/syntax/models.py: which layers they are made of and how the layers treat a batch. *)
From Coq Require Import List NArith ZArith Arith Bool.
From Verif Require Import PyBase Regex MUtils MTree MVector MParser MBatch.
Import ListNotations.
Local Open Scope nat_scope.

(** Element by element; tensors of different sizes raise ValueError *)
Fixpoint map2M {A B C} (f : A -> B -> res C) (a : list A) (b : list B) : res (list C) :=
  match a, b with
  | [], [] => Ok []
  | x :: a', y :: b' => let! z := f x y in let! l := map2M f a' b' in Ok (z :: l)
  | _, _ => Err ValueError
  end.
(** The shape an Input layer demands of each element of the batch; another one raises ValueError, and so does a ragged array *)
Definition expect1 {A} (n : nat) (t : list A) : res (list A) := if length t =? n then Ok t else Err ValueError.
Definition expect2 {A} (rows cols : nat) (t : list (list A)) : res (list (list A)) :=
  if (length t =? rows) && forallb (fun r => length r =? cols) t then Ok t else Err ValueError.
(** tf.boolean_mask(t, mask, axis=0): the vectors of the whole batch whose mask is true, one after the other *)
Definition boolean_mask {A} (t : list (list A)) (mask : list (list bool)) : list A :=
  map fst (filter snd (combine (concat t) (concat mask))).
(** tf.keras.Model.predict with its default batch size: the inputs are cut into parts of 32 elements, the outputs put one after the other *)
Definition part {A} (k : nat) (l : list A) : list A := firstn 32 (skipn (32 * k) l).
Definition nb_parts (n : nat) : nat := (n + 31) / 32.
Definition keras_predict {A} (n : nat) (model : nat -> res (list A)) : res (list A) :=
  match n with
  | O => Err ValueError
  | _ => let! parts := mapM model (seq 0 (nb_parts n)) in Ok (concat parts)
  end.

Section Net.
  (** Numbers. [cast] turns the components of a word vector into the numbers of TensorFlow. Sums of products are functions of their
      arguments, whose rounding and order are not modelled; so are relu, softmax and maximum. A layer gives an element of a batch what it
      would give it in another batch of any size. *)
  Context (V F : Type) (cast : V -> F) (f0 : F) (feq : F -> F -> bool) (fmax : F -> F -> F) (relu : F -> F) (softmax : list F -> list F)
          (affine : list F -> list F -> F -> F).
  (** The state of an LSTM layer *)
  Context (State : Type).
  (** tf.keras.layers.Dense: for each unit its weights and bias *)
  Definition dense := list (list F * F).
  Definition dense_call (d : dense) (x : list F) : list F := map (fun '(w, b) => affine x w b) d.
  (** tf.keras.layers.LSTM(512, return_sequences=True): initial state, the step for an input, the output of a state *)
  Record lstm := { l_start : State; l_step : list F -> State -> State; l_out : State -> list F }.
  (** The weights of a network; the vectors of tags and dependencies and the hidden layer are not used by all of them *)
  Record weights := {
    w_chars : list (list F); w_convs : list dense; w_tags : list (list F); w_deps : list (list F);
    w_forward : lstm; w_backward : lstm; w_mlp : dense; w_out : dense
  }.

  (** tf.keras.layers.Embedding: a code out of range raises (InvalidArgumentError, here ValueError) *)
  Definition embed (table : list (list F)) (code : nat) : res (list F) := of_option ValueError (nth_error table code).
  (** syntax/models.py:37: Conv2D with a window of one row and [window] columns, padding 'same': the zeros that are missing are put
      before (half of them, rounded down) and after *)
  Definition conv (window : nat) (d : dense) (row : list (list F)) : list (list F) :=
    let before := (window - 1) / 2 in
    let zeros := repeat f0 100 in
    let padded := repeat zeros before ++ row ++ repeat zeros (window - 1 - before) in
    map (fun j => map relu (dense_call d (concat (firstn window (skipn j padded))))) (seq 0 (length row)).
  (** syntax/models.py:39: MaxPool2D with a pool of one row and [width] columns; strides are the pool, padding 'valid' *)
  Fixpoint max_of (best : list F) (l : list (list F)) : list F :=
    match l with [] => best | v :: l' => max_of (map (fun '(a, b) => fmax a b) (combine best v)) l' end.
  Definition max_pool (width : nat) (row : list (list F)) : list (list F) :=
    map (fun k => match firstn width (skipn (k * width) row) with [] => [] | v :: l => max_of v l end) (seq 0 (length row / width)).
  (** tf.keras.layers.Reshape((rows, cols)) *)
  Definition reshape (rows cols : nat) (t : list (list (list F))) : res (list (list F)) :=
    let flat := concat (concat t) in
    if length flat =? rows * cols then Ok (map (fun i => firstn cols (skipn (i * cols) flat)) (seq 0 rows)) else Err ValueError.
  (** syntax/models.py:27-43 [_char_model], for one sentence *)
  Definition char_model (w : weights) (char_inputs : list (list nat)) : res (list (list F)) :=
    let! char_inputs := expect2 PADDED_SENT_LENGTH PADDED_WORD_LENGTH char_inputs in
    let! char_embed := mapM (mapM (embed (w_chars w))) char_inputs in
    let pools := map (fun '(window, d) => map (fun row => max_pool PADDED_WORD_LENGTH (conv window d row)) char_embed) (combine [2; 3; 4; 5] (w_convs w)) in
    match pools with
    | [] => Err ValueError
    | pool :: pools' =>
      let! concat_cnns := foldM (map2M (fun a b => Ok (a ++ b))) pool pools' in
      reshape PADDED_SENT_LENGTH (128 * 4) concat_cnns
    end.
  (** syntax/models.py:74-75, 113-115, 162-164: the word vectors, as numbers *)
  Definition word_inputs (words : list (list V)) : res (list (list F)) :=
    let! words := expect2 PADDED_SENT_LENGTH WORD_VECTOR_SIZE words in
    Ok (map (map cast) words).
  (** concatenate(..., axis=2) of two tensors, for one sentence *)
  Definition beside (a b : list (list F)) : res (list (list F)) := map2M (fun x y => Ok (x ++ y)) a b.
  Definition embed_all (table : list (list F)) (codes : list nat) : res (list (list F)) :=
    let! codes := expect1 PADDED_SENT_LENGTH codes in
    mapM (embed table) codes.

  (** An LSTM layer called with a mask: a masked step leaves the state and gives the previous output again (zeros at first) *)
  Fixpoint lstm_run (l : lstm) (s : State) (previous : list F) (xs : list (list F * bool)) : list (list F) :=
    match xs with
    | [] => []
    | (x, true) :: xs' => let s' := l_step l x s in l_out l s' :: lstm_run l s' (l_out l s') xs'
    | (_, false) :: xs' => previous :: lstm_run l s previous xs'
    end.
  Definition lstm_call (l : lstm) (xs : list (list F * bool)) : list (list F) := lstm_run l (l_start l) (repeat f0 512) xs.
  (** syntax/models.py:79-81, 120-122, 171-174: the mask is true where a number of the row is not zero; one LSTM reads forward, the
      other backward, and their outputs are put beside each other. The dropout does nothing in a prediction. *)
  Definition bilstm (w : weights) (rows : list (list F)) : list (list F) :=
    let xs := map (fun r => (r, existsb (fun x => negb (feq x f0)) r)) rows in
    map (fun '(a, b) => a ++ b) (combine (lstm_call (w_forward w) xs) (rev (lstm_call (w_backward w) (rev xs)))).
  (** TimeDistributed(Dense(..., activation='softmax')) and Dense(..., activation='softmax') *)
  Definition classes (w : weights) (h : list F) : list F := softmax (dense_call (w_out w) h).

  (** syntax/models.py:72-82 [PTagsModel], for one sentence *)
  Definition tags_one (w : weights) (chars : list (list nat)) (words : list (list V)) : res (list (list F)) :=
    let! c := char_model w chars in
    let! v := word_inputs words in
    let! word_repr := beside c v in
    Ok (map (classes w) (bilstm w word_repr)).
  (** syntax/models.py:110-123 [PDepsModel], for one sentence *)
  Definition deps_one (w : weights) (tags : list nat) (chars : list (list nat)) (words : list (list V)) : res (list (list F)) :=
    let! c := char_model w chars in
    let! v := word_inputs words in
    let! t := embed_all (w_tags w) tags in
    let! cv := beside c v in
    let! word_repr := beside cv t in
    Ok (map (classes w) (bilstm w word_repr)).
  (** syntax/models.py:158-174 [TransModel], up to the outputs of the LSTM layers, for one sentence *)
  Definition trans_states (w : weights) (tags deps : list nat) (chars : list (list nat)) (words : list (list V)) : res (list (list F)) :=
    let! c := char_model w chars in
    let! v := word_inputs words in
    let! t := embed_all (w_tags w) tags in
    let! d := embed_all (w_deps w) deps in
    let! cv := beside c v in
    let! cvt := beside cv t in
    let! word_repr := beside cvt d in
    Ok (bilstm w word_repr).

  (** The networks on one part of a batch. The layers treat the sentences one by one, but for the selection of the two time steps
      (syntax/models.py:175-177), which works on the whole part *)
  Definition tags_part (w : weights) (chars : list (list (list nat))) (words : list (list (list V))) : res (list (list (list F))) :=
    map2M (tags_one w) chars words.
  Definition deps_part (w : weights) (tags : list (list nat)) (chars : list (list (list nat))) (words : list (list (list V))) : res (list (list (list F))) :=
    let! tc := map2M (fun t c => Ok (t, c)) tags chars in
    map2M (fun '(t, c) v => deps_one w t c v) tc words.
  (** syntax/models.py:158-183: two rows of states for each sentence when each mask is true once; the rows of the two selections are put
      beside each other *)
  Definition trans_part (w : weights) (tags deps : list (list nat)) (chars : list (list (list nat))) (words : list (list (list V)))
      (masks_1 masks_2 : list (list bool)) : res (list (list F)) :=
    let! td := map2M (fun t d => Ok (t, d)) tags deps in
    let! cv := map2M (fun c v => Ok (c, v)) chars words in
    let! states := map2M (fun '(t, d) '(c, v) => trans_states w t d c v) td cv in
    let! masks_1 := mapM (expect1 PADDED_SENT_LENGTH) masks_1 in
    let! masks_2 := mapM (expect1 PADDED_SENT_LENGTH) masks_2 in
    let timestep1 := boolean_mask states masks_1 in
    let timestep2 := boolean_mask states masks_2 in
    let! mlp_inputs := beside timestep1 timestep2 in
    Ok (map (fun x => classes w (map relu (dense_call (w_mlp w) x))) mlp_inputs).

  (** syntax/models.py:97, 139, 196-198: self._model.predict of the three models *)
  Definition library_networks (w_ptags w_pdeps w_trans : weights) : networks V F := {|
    net_tags := fun chars words => keras_predict (length chars) (fun k => tags_part w_ptags (part k chars) (part k words));
    net_deps := fun tags chars words => keras_predict (length tags) (fun k => deps_part w_pdeps (part k tags) (part k chars) (part k words));
    net_trans := fun tags deps chars words masks_1 masks_2 =>
      keras_predict (length tags) (fun k => trans_part w_trans (part k tags) (part k deps) (part k chars) (part k words) (part k masks_1) (part k masks_2))
  |}.
End Net.
Arguments w_chars {F State} w.
Arguments w_convs {F State} w.
Arguments w_tags {F State} w.
Arguments w_deps {F State} w.
Arguments w_mlp {F State} w.
Arguments w_out {F State} w.
