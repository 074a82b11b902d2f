(** Specification vocabulary for preprocessing: whitespace, blocks, quoted parts, sentences. *)
From Coq Require Import Ascii String.
From Coq Require Import List NArith Arith Bool.
From Verif Require Import PyBase Regex.
Import ListNotations.
Local Open Scope nat_scope.

Definition space : char := 32%N.
(** single spaces between words, and nothing else that is whitespace *)
Definition normal_form (U : udb) (s : str) : Prop :=
  (forall c, In c s -> u_space U c = true -> c = space) /\
  (forall s', s <> space :: s') /\ (forall s', s <> s' ++ [space]) /\ (forall a b, s <> a ++ space :: space :: b).
(** every run of whitespace becomes one space; [prev]: is the character before a whitespace? *)
Fixpoint collapse (U : udb) (prev : bool) (s : str) : str :=
  match s with
  | [] => []
  | c :: s' => if u_space U c then (if prev then [] else [space]) ++ collapse U true s' else c :: collapse U false s'
  end.

(** a text cut at the whitespace that contains a tab or an end of line; 9, 10 and 13 are the codes of \t, \n and \r *)
Definition newline (c : char) : Prop := c = 9%N \/ c = 10%N \/ c = 13%N.
Inductive split_blocks (U : udb) : str -> list str -> Prop :=
| blocks_last b : (forall c, In c b -> ~ newline c) -> split_blocks U b [b]
| blocks_cons b s rest bs :
    (forall c, In c b -> ~ newline c) -> (forall b' c, b = b' ++ [c] -> u_space U c = false) ->
    (forall c, In c s -> u_space U c = true) -> (exists c, In c s /\ newline c) ->
    (forall c rest', rest = c :: rest' -> u_space U c = false) ->
    split_blocks U rest bs -> split_blocks U (b ++ s ++ rest) (b :: bs).

(** the parts of a text between an opening character [o] and the next closing character [c], with the text before each;
    the text after the last one. The text may be made of characters or of anything else. *)
Inductive parts_of {A} (o c : A) : list A -> list (list A * list A) -> list A -> Prop :=
| parts_none text : (forall x y z, text <> x ++ [o] ++ y ++ [c] ++ z) -> parts_of o c text [] text
| parts_some pre inside rest ps tl : ~ In o pre -> ~ In c inside -> parts_of o c rest ps tl ->
    parts_of o c (pre ++ [o] ++ inside ++ [c] ++ rest) ((pre, inside) :: ps) tl.
(** the text with numbered marks instead of the parts *)
Definition mark (starter ender : char) (n : nat) : str := [space] ++ [starter] ++ str_of_nat n ++ [ender] ++ [space].
Fixpoint marked (starter ender : char) (n : nat) (ps : list (str * str)) (tl : str) : str :=
  match ps with
  | [] => tl
  | (pre, _) :: ps' => pre ++ mark starter ender n ++ marked starter ender (S n) ps' tl
  end.

(** a list of tokens cut into sentences, after each token that ends a sentence, and at each mark, which is removed *)
Inductive cut {A} (ender mark : A -> Prop) : list A -> list (list A) -> Prop :=
| cut_end : cut ender mark [] []
| cut_last s : s <> [] -> Forall (fun t => ~ ender t /\ ~ mark t) s -> cut ender mark s [s]
| cut_ender s e rest ss : Forall (fun t => ~ ender t /\ ~ mark t) s -> ender e -> cut ender mark rest ss -> cut ender mark (s ++ e :: rest) ((s ++ [e]) :: ss)
| cut_mark s p rest ss : Forall (fun t => ~ ender t /\ ~ mark t) s -> mark p -> cut ender mark rest ss -> cut ender mark (s ++ p :: rest) (s :: ss).
(** tokens that end a sentence; 182 is the code of the paragraph mark *)
Definition ends_sentence (token : str) : Prop := token <> [] /\ Forall (fun c => In c (lit ".?!:")) token.
Definition paragraph : str := [182%N].
Definition inner (token : str) : Prop := ~ ends_sentence token /\ ~ token = paragraph.
(** the sentences of a list of tokens *)
Definition sentences : list str -> list (list str) -> Prop := cut ends_sentence (fun t => t = paragraph).

(** the four characters of the marks *)
Definition reserved (c : char) : Prop := In c [3898; 3899; 10629; 10630]%N.
(** quoted and bracketed parts as units of the text: a character, a quoted part, a bracketed part *)
Inductive item := Ch (c : char) | Quoted (inside : str) | Bracketed (inside : list item).
(** a mark after each full stop that is followed by a closing quotation mark *)
Fixpoint close_quotes (s : str) : str :=
  match s with
  | c :: ((d :: s'') as s') => if N.eqb c 46 && N.eqb d 34 then 46%N :: 34%N :: 182%N :: close_quotes s'' else c :: close_quotes s'
  | _ => s
  end.
Definition chunked {A B} (f : A -> B) (g : list A -> B) (ps : list (list A * list A)) (tl : list A) : list B :=
  flat_map (fun '(pre, inside) => map f pre ++ [g inside]) ps ++ map f tl.
(** the units of a text: first the quoted parts, then the bracketed parts among them *)
Definition items_of (text : str) (items : list item) : Prop :=
  exists qs qtl bs btl, parts_of 34%N 34%N text qs qtl /\
    parts_of (Ch 40%N) (Ch 41%N) (chunked Ch Quoted qs qtl) bs btl /\ items = chunked (fun i => i) Bracketed bs btl.
(** the tokens of a list of units: words between whitespace, quoted parts and bracketed parts *)
Inductive tok := Word (w : str) | Part (tokens : list str).
Definition spell (t : tok) : list str := match t with Word w => [w] | Part ts => ts end.
Inductive toks_of (U : udb) : list item -> list tok -> Prop :=
| toks_nil : toks_of U [] []
| toks_space c l ts : u_space U c = true -> toks_of U l ts -> toks_of U (Ch c :: l) ts
| toks_word w l ts : w <> [] -> (forall c, In c w -> u_space U c = false) -> (forall c l', l = Ch c :: l' -> u_space U c = true) ->
    toks_of U l ts -> toks_of U (map Ch w ++ l) (Word w :: ts)
| toks_quoted inside l ts : toks_of U l ts ->
    toks_of U (Quoted inside :: l) (Part ([[34%N]] ++ split_ws (u_space U) inside ++ [[34%N]]) :: ts)
| toks_bracketed inside its l ts : toks_of U inside its -> toks_of U l ts ->
    toks_of U (Bracketed inside :: l) (Part ([[40%N]] ++ flat_map spell its ++ [[41%N]]) :: ts).
(** only a word can end a sentence *)
Definition sentences_of_toks : list tok -> list (list tok) -> Prop :=
  cut (fun t => exists w, t = Word w /\ ends_sentence w) (fun t => t = Word paragraph).
(** the sentences of one block of a text, when tokens are separated by whitespace *)
Definition block_sentences (U : udb) (block : str) (ss : list (list str)) : Prop :=
  exists items toks tss, items_of (join [space] (split_ws (u_space U) (close_quotes block))) items /\ toks_of U items toks /\
    sentences_of_toks toks tss /\ ss = map (flat_map spell) tss.
