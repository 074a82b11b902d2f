(** A reader of JSON texts (RFC 8259), for texts of strings, integers, arrays and objects; it does not join surrogates, and knows no fractions,
    exponents, true, false and null. *)
From Coq Require Import List NArith ZArith Arith Bool.
From Verif Require Import PyBase MWarn.
Import ListNotations.
Local Open Scope nat_scope.

Definition is_ws (c : char) : bool := N.eqb c 32 || N.eqb c 9 || N.eqb c 10 || N.eqb c 13.
Fixpoint skip_ws (s : str) : str := match s with c :: s' => if is_ws c then skip_ws s' else s | [] => [] end.

Definition hex_val (c : char) : option N :=
  if ((48 <=? c) && (c <=? 57))%N then Some (c - 48)%N
  else if ((97 <=? c) && (c <=? 102))%N then Some (c - 87)%N
  else if ((65 <=? c) && (c <=? 70))%N then Some (c - 55)%N
  else None.
(** the rest of a string after its opening quotation mark *)
Fixpoint read_chars (s : str) : option (str * str) :=
  match s with
  | [] => None
  | c :: s' =>
    if N.eqb c 34 then Some ([], s')
    else if N.eqb c 92 then
      match s' with
      | [] => None
      | e :: s2 =>
        let one x := match read_chars s2 with Some (t, r) => Some (x :: t, r) | None => None end in
        if N.eqb e 34 then one 34%N else if N.eqb e 92 then one 92%N else if N.eqb e 47 then one 47%N
        else if N.eqb e 98 then one 8%N else if N.eqb e 102 then one 12%N else if N.eqb e 110 then one 10%N
        else if N.eqb e 114 then one 13%N else if N.eqb e 116 then one 9%N
        else if N.eqb e 117 then
          match s2 with
          | h1 :: h2 :: h3 :: h4 :: s6 =>
            match hex_val h1, hex_val h2, hex_val h3, hex_val h4, read_chars s6 with
            | Some a, Some b, Some c, Some d, Some (t, r) => Some ((((a * 16 + b) * 16 + c) * 16 + d)%N :: t, r)
            | _, _, _, _, _ => None
            end
          | _ => None
          end
        else None
      end
    else if (c <? 32)%N then None
    else match read_chars s' with Some (t, r) => Some (c :: t, r) | None => None end
  end.
Definition is_digit (c : char) : bool := ((48 <=? c) && (c <=? 57))%N.
(** the longest run of digits *)
Fixpoint read_digits (s : str) (acc : Z) : Z * str :=
  match s with
  | c :: s' => if is_digit c then read_digits s' (acc * 10 + (Z.of_N c - 48))%Z else (acc, s)
  | [] => (acc, [])
  end.
(** an integer has no superfluous zero *)
Definition read_nat (s : str) : option (Z * str) :=
  match s with
  | [] => None
  | c :: s' => if N.eqb c 48 then Some (0%Z, s') else if is_digit c then Some (read_digits s 0) else None
  end.

(** what follows character [c], spaces skipped *)
Definition after (c : char) (s : str) : option str :=
  match skip_ws s with d :: r => if N.eqb d c then Some r else None | [] => None end.

Fixpoint read_value (fuel : nat) (s : str) : option (json * str) :=
  match fuel with
  | O => None
  | S f =>
    match skip_ws s with
    | [] => None
    | c :: s' =>
      if N.eqb c 34 then match read_chars s' with Some (t, r) => Some (JStr t, r) | None => None end
      else if N.eqb c 91 then
        match after 93%N s' with
        | Some r => Some (JList [], r)
        | None => match read_items f s' with Some (l, r) => Some (JList l, r) | None => None end
        end
      else if N.eqb c 123 then
        match after 125%N s' with
        | Some r => Some (JObj [], r)
        | None => match read_members f s' with Some (l, r) => Some (JObj l, r) | None => None end
        end
      else if N.eqb c 45 then match read_nat s' with Some (z, r) => Some (JInt (- z), r) | None => None end
      else match read_nat (c :: s') with Some (z, r) => Some (JInt z, r) | None => None end
    end
  end
with read_items (fuel : nat) (s : str) : option (list json * str) :=
  match fuel with
  | O => None
  | S f =>
    match read_value f s with
    | None => None
    | Some (v, r) =>
      match after 93%N r, after 44%N r with
      | Some r', _ => Some ([v], r')
      | None, Some r' => match read_items f r' with Some (l, r2) => Some (v :: l, r2) | None => None end
      | None, None => None
      end
    end
  end
with read_members (fuel : nat) (s : str) : option (list (str * json) * str) :=
  match fuel with
  | O => None
  | S f =>
    match after 34%N s with
    | None => None
    | Some s1 =>
      match read_chars s1 with
      | None => None
      | Some (k, s2) =>
        match after 58%N s2 with
        | None => None
        | Some s3 =>
          match read_value f s3 with
          | None => None
          | Some (v, r) =>
            match after 125%N r, after 44%N r with
            | Some r', _ => Some ([(k, v)], r')
            | None, Some r' => match read_members f r' with Some (l, r2) => Some ((k, v) :: l, r2) | None => None end
            | None, None => None
            end
          end
        end
      end
    end
  end.
(** the value of a text; every call reads a character, so this fuel is enough *)
Definition json_read (s : str) : option json :=
  match read_value (2 * length s) s with
  | Some (v, r) => match skip_ws r with [] => Some v | _ => None end
  | None => None
  end.
