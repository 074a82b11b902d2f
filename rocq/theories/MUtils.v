(** Model of scrappybara/utils: mutables.py, multithreading.py, maths.py, timer.py, text.py. *)
From Coq Require Import Ascii String.
From Coq Require Import List NArith ZArith QArith Arith Bool Lia.
From Flocq Require Import Core.Core IEEE754.BinarySingleNaN.
From Verif Require Import PyBase Regex.
Import ListNotations.
Local Open Scope nat_scope.

(** * numpy's binary64 numbers *)

Local Instance p53_gt_0 : Prec_gt_0 53 := eq_refl.
Local Instance p53_lt_emax : Prec_lt_emax 53 1024 := eq_refl.
Definition b64 := binary_float 53 1024.
Definition b64_of_Z (z : Z) : b64 := binary_normalize 53 1024 _ _ mode_NE z 0 false.
Definition b64_mult (x y : b64) : b64 := Bmult mode_NE x y.
Definition b64_div (x y : b64) : b64 := Bdiv mode_NE x y.
(** int(x): truncation. Infinities and NaN, on which int raises, give 0 here: they do not occur for
    lists of fewer than 2^53 items, the range of all theorems that use this model. *)
Definition b64_int (x : b64) : Z := Btrunc x.

(** np.linspace(0, len, num=n+1), as called at utils/mutables.py:10, for 1 <= n <= len: numpy computes
    step = stop / n, then i * step for i = 0..n (adding start = 0.0 changes nothing), then overwrites
    the last mark by stop. *)
Definition linspace (len n : Z) : list b64 :=
  let stop := b64_of_Z len in
  let step := b64_div stop (b64_of_Z n) in
  map (fun i => b64_mult (b64_of_Z (Z.of_nat i)) step) (seq 0 (Z.to_nat n)) ++ [stop].

(** * mutables.py *)

(** ranges[i], ranges[i+1] for i in range(len(ranges) - 1) *)
Fixpoint adjacent {A} (l : list A) : list (A * A) :=
  match l with
  | a :: (b :: _) as l' => (a, b) :: adjacent l'
  | _ => []
  end.

(** utils/mutables.py:4-15 [divide_list] *)
Definition divide_list {A} (items : list A) (nb_lists : Z) : res (list (list A)) :=
  if (nb_lists <=? 0)%Z then Err AssertionError
  else
    let len_list := Z.of_nat (length items) in
    if (nb_lists <=? len_list)%Z then
      Ok (map (fun '(a, b) => slice (Some (b64_int a)) (Some (b64_int b)) items)
              (adjacent (linspace len_list nb_lists)))
    else Ok (map (fun x => [x]) items).

(** range(0, n, step) for step > 0; the fuel is n, which is enough as step >= 1 *)
Fixpoint range_step (fuel start stop step : nat) : list nat :=
  match fuel with
  | O => []
  | S f => if start <? stop then start :: range_step f (start + step) stop step else []
  end.

(** utils/mutables.py:18-19 [make_batches]: range() raises ValueError for a step of 0 and is empty for a
    negative step *)
Definition make_batches {A} (items : list A) (nb : Z) : res (list (list A)) :=
  if (nb =? 0)%Z then Err ValueError
  else if (nb <? 0)%Z then Ok []
  else Ok (map (fun i => slice (Some (Z.of_nat i)) (Some (Z.of_nat i + nb)%Z) items)
               (range_step (length items) 0 (length items) (Z.to_nat nb))).

Section Grouping.
  Context {K V : Type} (eqb : K -> K -> bool).
  (** utils/mutables.py:22-27 [append_to_dict_list] *)
  Definition append_to_dict_list (dic : dict K (list V)) (key : K) (item : V) : dict K (list V) :=
    match dget eqb key dic with
    | Some l => dset eqb key (l ++ [item]) dic
    | None => dset eqb key [item] dic
    end.
  (** utils/mutables.py:30-35 [add_in_dict_set]: the set is a list without repetition; its order is not
      meaningful *)
  Definition add_in_dict_set (veqb : V -> V -> bool) (dic : dict K (list V)) (key : K) (item : V) : dict K (list V) :=
    match dget eqb key dic with
    | Some l => dset eqb key (if existsb (veqb item) l then l else l ++ [item]) dic
    | None => dset eqb key [item] dic
    end.
End Grouping.

(** utils/mutables.py:38-46 [append_in_dict_dict_list] *)
Definition append_in_dict_dict_list {K1 K2 V} (eqb1 : K1 -> K1 -> bool) (eqb2 : K2 -> K2 -> bool)
    (dic : dict K1 (dict K2 (list V))) (key1 : K1) (key2 : K2) (item : V) : dict K1 (dict K2 (list V)) :=
  match dget eqb1 key1 dic with
  | Some inner =>
    match dget eqb2 key2 inner with
    | Some l => dset eqb1 key1 (dset eqb2 key2 (l ++ [item]) inner) dic
    | None => dset eqb1 key1 (dset eqb2 key2 [item] inner) dic
    end
  | None => dset eqb1 key1 [(key2, [item])] dic
  end.

(** utils/mutables.py:49-50 [reverse_dict] *)
Definition reverse_dict {K V} (veqb : V -> V -> bool) (dic : dict K V) : dict V K :=
  fold_left (fun d '(k, v) => dset veqb v k d) dic [].

(** * multithreading.py: a small-step semantics of the worker threads *)

Section Threads.
  Context {A B : Type} (process : A -> res B).

  (** utils/multithreading.py:6-16 [_Thread]. [th_todo] and [th_acc] are the state of the list
      comprehension of line 16; [th_out] is output_items, assigned only when the comprehension is over. *)
  Inductive th_status := NotStarted | Running | Dead.
  Record thread := { th_status_ : th_status; th_todo : list A; th_acc : list B; th_out : list B }.
  Definition new_thread (items : list A) : thread :=
    {| th_status_ := NotStarted; th_todo := items; th_acc := []; th_out := [] |}.

  (** One step of a running thread: process one item, or, at the end, assign output_items and stop.
      An exception ends the thread: threading prints it and output_items stays empty. *)
  Definition thread_step (t : thread) : option thread :=
    match th_status_ t with
    | Running =>
      match th_todo t with
      | [] => Some {| th_status_ := Dead; th_todo := []; th_acc := th_acc t; th_out := th_acc t |}
      | x :: l =>
        match process x with
        | Ok y => Some {| th_status_ := Running; th_todo := l; th_acc := th_acc t ++ [y]; th_out := th_out t |}
        | Err _ => Some {| th_status_ := Dead; th_todo := x :: l; th_acc := th_acc t; th_out := th_out t |}
        end
      end
    | _ => None
    end.

  (** utils/multithreading.py:19-29 [run_multithreads]: the main thread starts the workers one by one
      (lines 23-25), then joins them in order and collects their output (lines 26-28), then returns. *)
  Inductive main_pc := Starting (idx : nat) | Joining (idx : nat) (output : list B) | Returned (output : list B).
  Record config := { c_main : main_pc; c_threads : list thread }.

  Definition set_nth {T} (i : nat) (x : T) (l : list T) : list T := firstn i l ++ x :: skipn (S i) l.

  Inductive step : config -> config -> Prop :=
  | StepStart : forall i ts t,
      nth_error ts i = Some t ->
      step {| c_main := Starting i; c_threads := ts |}
           {| c_main := Starting (S i);
              c_threads := set_nth i {| th_status_ := Running; th_todo := th_todo t; th_acc := th_acc t; th_out := th_out t |} ts |}
  | StepStarted : forall i ts,
      i = length ts ->
      step {| c_main := Starting i; c_threads := ts |} {| c_main := Joining 0 []; c_threads := ts |}
  | StepJoin : forall i out ts t,
      nth_error ts i = Some t -> th_status_ t = Dead ->
      step {| c_main := Joining i out; c_threads := ts |}
           {| c_main := Joining (S i) (out ++ th_out t); c_threads := ts |}
  | StepReturn : forall i out ts,
      i = length ts ->
      step {| c_main := Joining i out; c_threads := ts |} {| c_main := Returned out; c_threads := ts |}
  | StepThread : forall i pc ts t t',
      nth_error ts i = Some t -> thread_step t = Some t' ->
      step {| c_main := pc; c_threads := ts |} {| c_main := pc; c_threads := set_nth i t' ts |}.

  Inductive steps : nat -> config -> config -> Prop :=
  | Steps0 : forall c, steps 0 c c
  | StepsS : forall n c c' c'', step c c' -> steps n c' c'' -> steps (S n) c c''.

  Definition init_config (lists : list (list A)) : config :=
    {| c_main := Starting 0; c_threads := map new_thread lists |}.
End Threads.

(** The call run_multithreads(items, process, n) can return [out] after some interleaving. *)
Definition run_multithreads_returns {A B} (process : A -> res B) (items : list A) (n : Z) (out : list B) : Prop :=
  exists lists k c, divide_list items n = Ok lists /\
    steps process k (init_config lists) c /\ c_main c = Returned out.

(** The value computed by run_multithreads as a function, used by the callers' models: the
    concatenation of the outputs of the threads. LUtils.v proves that every schedule returns it. *)
Definition thread_output {A B} (process : A -> res B) (l : list A) : list B :=
  match mapM process l with Ok ys => ys | Err _ => [] end.
Definition run_multithreads {A B} (process : A -> res B) (items : list A) (n : Z) : res (list B) :=
  let! lists := divide_list items n in
  Ok (flat_map (thread_output process) lists).

(** * maths.py *)

(** utils/maths.py:1-6 [xnor] *)
Definition xnor (bools : list bool) : res bool :=
  let! b0 := index bools 0 in
  let! b1 := index bools 1 in
  Ok (fold_left Bool.eqb (slice (Some 2%Z) None bools) (Bool.eqb b0 b1)).

(** * timer.py *)

(** Times are exact rationals: binary64 rounding of clock differences and of the sum is not modelled. *)
Definition qdivmod (t : Q) (d : Z) : Z * Q :=
  let q := Qround.Qfloor (t / inject_Z d) in (q, t - inject_Z (d * q))%Q.

(** '%d' on a number: truncation *)
Definition qtrunc (q : Q) : Z := if Qle_bool 0 q then Qround.Qfloor q else Qround.Qceiling q.

(** '%d' of an integer *)
Definition str_of_Z (z : Z) : str :=
  if (z <? 0)%Z then lit "-" ++ str_of_nat (Z.to_nat (- z)) else str_of_nat (Z.to_nat z).
(** '%02d': padded with zeros to two characters (after the sign) *)
Definition str_of_Z_02 (z : Z) : str :=
  let s := str_of_nat (Z.to_nat (Z.abs z)) in
  if (z <? 0)%Z then lit "-" ++ s
  else if (length s <? 2)%nat then lit "0" ++ s else s.

(** utils/timer.py:4-8 [_time_string], its three numbers *)
Definition time_fields (t : Q) : Z * Z * Z :=
  let '(minutes, seconds) := qdivmod t 60 in
  let '(hours, minutes) := qdivmod (inject_Z minutes) 60 in
  (hours, qtrunc minutes, qtrunc seconds).
Definition time_string (t : Q) : str :=
  let '(h, mn, s) := time_fields t in
  str_of_Z h ++ lit ":" ++ str_of_Z_02 mn ++ lit ":" ++ str_of_Z_02 s.

(** utils/timer.py:11-34 [Timer]. The readings of the clock are given by [clock], a stream; [tm_reads]
    is the number of readings made so far. *)
Record timer := { tm_start : Q; tm_laps : list Q; tm_reads : nat }.
Definition timer_init (clock : nat -> Q) (reads : nat) : timer :=
  {| tm_start := clock reads; tm_laps := [0%Q]; tm_reads := S reads |}.
(** utils/timer.py:21-25 [_new_lap] *)
Definition new_lap (clock : nat -> Q) (t : timer) : Q * timer :=
  let lap_time := (clock (tm_reads t) - tm_start t)%Q in
  (lap_time, {| tm_start := clock (S (tm_reads t)); tm_laps := tm_laps t ++ [lap_time]; tm_reads := S (S (tm_reads t)) |}).
(** utils/timer.py:27-29 [lap_time] *)
Definition timer_lap_time (clock : nat -> Q) (t : timer) : str * timer :=
  let '(l, t') := new_lap clock t in (time_string l, t').
(** utils/timer.py:31-34 [total_time] *)
Definition timer_total_time (clock : nat -> Q) (t : timer) : str * timer :=
  let '(_, t') := new_lap clock t in (time_string (fold_left Qplus (tm_laps t') 0%Q), t').

(** * text.py *)

(** utils/text.py:3-8 *)
Definition LETTERS : str := lit "abcdefghijklmnopqrstuvwxyz".
Definition CONSONANTS : str := lit "qwrtpsdfghjklzxcvbnm".
Definition VOWELS : str := lit "eyuioa".
Definition UPPERCASE_LETTERS : str := lit "ABCDEFGHIJKLMNOPQRSTUVWXYZ".
Definition char_in (c : char) (s : str) : bool := existsb (N.eqb c) s.

(** utils/text.py:18-19 [starts_with_uppercase_letter] *)
Definition starts_with_uppercase_letter (token : str) : res bool :=
  let! c := index token 0 in Ok (char_in c UPPERCASE_LETTERS).
(** utils/text.py:22-23 [ends_with_consonant] *)
Definition ends_with_consonant (token : str) : res bool :=
  let! c := index token (-1) in Ok (char_in c CONSONANTS).
(** utils/text.py:10 [_RE_ONLY_LETTERS] = [a-zA-Z]+ *)
Definition re_only_letters : re := plus (Chr (cls [az; AZ])).
(** utils/text.py:26-27 [has_only_letters] *)
Definition has_only_letters (U : udb) (token : str) : bool :=
  match fullmatch U false re_only_letters token with Some _ => true | None => false end.
(** utils/text.py:30-31 [has_only_lowercase_letters]: the same pattern, as in the source *)
Definition has_only_lowercase_letters (U : udb) (token : str) : bool :=
  match fullmatch U false re_only_letters token with Some _ => true | None => false end.

(** utils/text.py:34-40 [token_start] *)
Definition token_start (token ending : str) (start_min_length : nat) : option str :=
  if endswith token ending && (length ending <? length token)%nat then
    let start := slice None (Some (- Z.of_nat (length ending))%Z) token in
    if (start_min_length <=? length start)%nat then Some start else None
  else None.

(** utils/text.py:43-52 [token_prefix]; [prefixes] is a Python set, given in its iteration order *)
Definition token_prefix (token : str) (prefixes : list str) : option (str * str) :=
  match split_chr 45%N token with
  | [a; b] => Some (a ++ lit "-", b)
  | _ =>
    match find (fun p => startswith token p) prefixes with
    | Some p => Some (p, slice (Some (Z.of_nat (length p))) None token)
    | None => None
    end
  end.

(** utils/text.py:55-62 [vowel_double_consonant_endings]: the IndexError raised by short words is
    caught *)
Definition vowel_double_consonant_endings (token : str) : option (list str) :=
  match index token (-3), index token (-2), index token (-1) with
  | Ok c3, Ok c2, Ok c1 =>
    if char_in c3 VOWELS && char_in c2 CONSONANTS && N.eqb c2 c1 then Some [[c1]; [c1; c1]] else None
  | _, _, _ => None
  end.

Definition not_none {T} (l : list (option T)) : list T :=
  flat_map (fun o => match o with Some x => [x] | None => [] end) l.
(** utils/text.py:70-72 [functionalize]; arguments are strings or None *)
Definition functionalize (name : str) (args : list (option str)) : str :=
  name ++ lit "(" ++ join (lit ", ") (not_none args) ++ lit ")".
(** utils/text.py:75-77 [defunctionalize]: unpacking raises ValueError unless there are two parts *)
Definition defunctionalize (marked : str) : res (str * str) :=
  match split_chr 40%N marked with
  | [fname; arg] => Ok (fname, slice None (Some (-1)%Z) arg)
  | _ => Err ValueError
  end.
(** utils/text.py:80-81 [associate]; the separator is U+01C1 *)
Definition associate (args : list (option str)) : str := join [449%N] (not_none args).
(** utils/text.py:84-89 [dissociate] *)
Definition dissociate (text : str) : option (str * str) :=
  match split_chr 449%N text with [a; b] => Some (a, b) | _ => None end.
(** utils/text.py:92-93 [attach_attributes]; the separator is U+00BB *)
Definition attach_attributes (token : str) (attrs : list (option str)) : str := join [187%N] (token :: not_none attrs).
(** utils/text.py:96-97 [detach_attributes] *)
Definition detach_attributes (text : str) : list str := split_chr 187%N text.
