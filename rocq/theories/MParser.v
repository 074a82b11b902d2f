(** Model of scrappybara/syntax/parser.py. *)
From Coq Require Import Ascii String.
From Coq Require Import List NArith ZArith Arith Bool.
From Verif Require Import PyBase Regex MUtils MTree MVector.
Import ListNotations.
Local Open Scope nat_scope.

(** syntax/parser.py:19-34 [_Parse]: the part of its state that changes, plus tags and deps. The stack is
    given top first. Character codes and word vectors are kept beside, see [item]. *)
Record parse := {
  p_tags : list tag;
  p_deps : list dep;
  p_buffer : list nat;
  p_stack : list nat;
  p_arcs : list (dep * nat * nat)    (* (dep, parent_idx, child_idx) *)
}.
Definition set_state (p : parse) (buffer stack : list nat) (arcs : list (dep * nat * nat)) : parse :=
  {| p_tags := p_tags p; p_deps := p_deps p; p_buffer := buffer; p_stack := stack; p_arcs := arcs |}.

(** syntax/parser.py:42-43 [__shift]: popleft on an empty deque raises IndexError *)
Definition p_shift (p : parse) : res parse :=
  match p_buffer p with
  | b :: bs => Ok (set_state p bs (b :: p_stack p) (p_arcs p))
  | [] => Err IndexError
  end.
(** syntax/parser.py:45-48 [__reduce] *)
Definition p_reduce (p : parse) : res parse :=
  match p_stack p with
  | [] => Err IndexError
  | _ :: ss =>
    let p' := set_state p (p_buffer p) ss (p_arcs p) in
    match ss with [] => p_shift p' | _ => Ok p' end
  end.
(** syntax/parser.py:50-52 [complete] *)
Definition p_complete (p : parse) : bool := match p_buffer p with [] => true | _ => false end.

(** syntax/parser.py:36-40 [__pdep] *)
Definition p_pdep (p : parse) (child_idx : nat) : res dep :=
  let! d := index (p_deps p) (Z.of_nat child_idx) in
  Ok (match d with ROOT => SPLIT | _ => d end).

Definition stack_top (p : parse) : res nat := match p_stack p with s :: _ => Ok s | [] => Err IndexError end.
Definition buffer_first (p : parse) : res nat := match p_buffer p with b :: _ => Ok b | [] => Err IndexError end.

(** syntax/parser.py:22-34: initial state from the predicted codes *)
Definition init_parse (seq_length : nat) (tag_codes dep_codes : list nat) : res parse :=
  let! tags := mapM tag_of_code (slice (Some 1%Z) (Some (Z.of_nat seq_length - 1)%Z) tag_codes) in
  let! deps := mapM dep_of_code (slice (Some 1%Z) (Some (Z.of_nat seq_length - 1)%Z) dep_codes) in
  let! kept := mapM (fun idx => let! d := index deps (Z.of_nat idx) in Ok (idx, negb (dep_eqb d NODEP))) (seq 0 (seq_length - 2)) in
  let buffer := map fst (filter snd kept) in
  let p := {| p_tags := tags; p_deps := deps; p_buffer := buffer; p_stack := []; p_arcs := [] |} in
  match buffer with [] => Ok p | _ => p_shift p end.

(** syntax/parser.py:72-82 [register_transition] *)
Definition register_transition (p : parse) (t : trans) : res parse :=
  match t with
  | LEFT =>
    let! s := stack_top p in
    let! d := p_pdep p s in
    let! b := buffer_first p in
    p_reduce (set_state p (p_buffer p) (p_stack p) (p_arcs p ++ [(d, b, s)]))
  | RIGHT =>
    let! b := buffer_first p in
    let! d := p_pdep p b in
    let! s := stack_top p in
    p_shift (set_state p (p_buffer p) (p_stack p) (p_arcs p ++ [(d, s, b)]))
  | REDUCE => p_reduce p
  | SHIFT => p_shift p
  end.
(** A predicted code: comparison of an integer with the members of an IntEnum; another integer changes
    nothing *)
Definition register_code (p : parse) (code : nat) : res parse :=
  match code with
  | 0 => register_transition p LEFT
  | 1 => register_transition p RIGHT
  | 2 => register_transition p REDUCE
  | 3 => register_transition p SHIFT
  | _ => Ok p
  end.

(** syntax/parser.py:54-64 [root]: smallest candidate. The sets are lists; sorted(...)[0] does not depend
    on repetitions. *)
Definition p_root (p : parse) : option nat :=
  let cands := flat_map (fun '(_, pidx, cidx) => [pidx; cidx]) (p_arcs p) in
  let cannot_be_root := map (fun '(_, _, cidx) => cidx) (p_arcs p) in
  hd_error (isort Nat.leb (filter (fun x => negb (existsb (Nat.eqb x) cannot_be_root)) cands)).

(** syntax/parser.py:85-94 [_build_tree] *)
Definition build_tree (p : parse) : res (option tree) :=
  match p_root p with
  | None => Ok None
  | Some root =>
    let! t := foldM (fun t '(d, pidx, cidx) => register_child t d pidx cidx) (new_tree root) (p_arcs p) in
    Ok (Some t)
  end.

Section Parser.
  Context (V : Type) (v0 : V) (U : udb).
  (** The three neural models (syntax/models.py:96-98, 138-140, 195-199), as arbitrary functions of their
      inputs, sentence by sentence: what is predicted for a sentence is assumed not to depend on the
      other sentences of the batch. A prediction is the list of the codes of the 52 rows, or one code. *)
  Record models := {
    ptags_model : list (list nat) -> list (list V) -> list nat;
    pdeps_model : list nat -> list (list nat) -> list (list V) -> list nat;
    trans_model : list nat -> list nat -> list (list nat) -> list (list V) -> list bool -> list bool -> nat
  }.
  Context (M : models) (cs : charset) (ws : wordset V).

  (** A parse with the materials that do not change *)
  Record item := { i_tag_codes : list nat; i_dep_codes : list nat; i_mats : mats V; i_parse : parse }.

  (** syntax/parser.py:114-119 for one sentence *)
  Definition make_item (d : mats V) : res item :=
    let tag_codes := ptags_model M (m_chars d) (m_words d) in
    let dep_codes := pdeps_model M tag_codes (m_chars d) (m_words d) in
    let! p := init_parse (m_length d) tag_codes dep_codes in
    Ok {| i_tag_codes := tag_codes; i_dep_codes := dep_codes; i_mats := d; i_parse := p |}.

  (** syntax/parser.py:66-70 [mats] and 141-146 [__predict_transitions] for one parse. In a batch all
      predictions are made before the transitions are registered; parses do not share state, so this is
      the same as one after the other. *)
  Definition item_step (i : item) : res item :=
    let p := i_parse i in
    let! s := stack_top p in
    let! b := buffer_first p in
    let! masks := make_masks (s + 1) (b + 1) in
    let code := trans_model M (i_tag_codes i) (i_dep_codes i) (m_chars (i_mats i)) (m_words (i_mats i)) (fst masks) (snd masks) in
    let! p' := register_code p code in
    Ok {| i_tag_codes := i_tag_codes i; i_dep_codes := i_dep_codes i; i_mats := i_mats i; i_parse := p' |}.

  (** One step of the parse at position [pos], in place *)
  Definition step_at (items : list item) (pos : nat) : res (list item) :=
    let! i := of_option IndexError (nth_error items pos) in
    let! i' := item_step i in
    Ok (firstn pos items ++ i' :: skipn (S pos) items).
  Definition incomplete (items : list item) : list nat :=
    map fst (filter (fun '(_, i) => negb (p_complete (i_parse i))) (enumerate items)).
  (** syntax/parser.py:121-126: the loop over incomplete parses; parses are designated by their position *)
  Fixpoint transition_loop (fuel : nat) (batch_size : Z) (items : list item) : res (list item) :=
    match incomplete items with
    | [] => Ok items
    | todo =>
      match fuel with
      | O => Err OutOfFuel
      | S f =>
        let! batches := make_batches todo batch_size in
        let! items' := foldM (fun its batch => foldM step_at its batch) items batches in
        transition_loop f batch_size items'
      end
    end.

  (** syntax/parser.py:108-130 [__call__] *)
  Definition parser_call (nb_processes batch_size : Z) (token_lists : list (list str))
    : res (list (list tag) * list (option tree)) :=
    let! ms := run_multithreads (vectorize_sentence V v0 U cs ws) token_lists nb_processes in
    let! batches := make_batches ms batch_size in
    let! item_lists := mapM (mapM make_item) batches in
    let all_items := concat item_lists in
    let! done := transition_loop (2 * PADDED_SENT_LENGTH) batch_size all_items in
    let all_tags := map (fun i => p_tags (i_parse i)) done in
    let! all_trees := run_multithreads (fun i => build_tree (i_parse i)) done nb_processes in
    Ok (all_tags, all_trees).
End Parser.
Arguments ptags_model {V} m.
Arguments pdeps_model {V} m.
Arguments trans_model {V} m.
Arguments i_parse {V} i.
Arguments i_mats {V} i.
Arguments i_tag_codes {V} i.
Arguments i_dep_codes {V} i.
