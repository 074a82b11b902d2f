(** C99: names with an ampersand. *)
From Coq Require Import Ascii String.
From Coq Require Import List NArith Arith Bool.
From Verif Require Import PyBase Regex MTokenizer STok LBase LUdb LTok LTokWords LFirm3 SEnglish SFirm.
Import ListNotations.

(** A text is made of words of ASCII letters, of ampersands, of single capital letters, and of the names
    [X & Y], [X Y & Z] and [X & Y Z], where X, Y and Z are single capital letters, with any white space between them.
    After a single capital letter and after a name there is nothing or a word of two letters or more, or of one small letter.
    Then each name is one token, without white space, and every other word and every other ampersand is one token as well. *)
Theorem C99_names : forall U, udb_ok U -> forall text is, is <> [] -> firm is -> words_of U text (flat_map pieces is) ->
  tokenize U text = Ok (map token is).
Proof. exact tokenize_firm. Qed.
Print Assumptions C99_names.

Definition sample : list item :=
  [One 73%N; Word (lit "sold"); Two 82%N 68%N; Word (lit "a"); Word (lit "toy"); And; Word (lit "Tom"); And; Before 65%N 66%N 67%N; Word (lit "Inc"); And; And; After 65%N 66%N 67%N].
Lemma sample_firm : firm sample.
Proof.
  assert (W : forall s, lit s <> [] -> forallb a_letter (lit s) = true -> map uncapital (lit s) <> lit "cannot" -> match lit s with [x] => upper_case x | _ => false end = false -> item_ok (Word (lit s))).
  { intros s H1 H2 H3 H4. split; [split; [exact H1|apply Forall_forall; apply forallb_forall; exact H2]|]. split; [exact H3|]. intros x E F. rewrite E in H4. unfold capital in F. congruence. }
  unfold sample. repeat (apply firm_cons; [first [apply W; [discriminate|reflexivity|discriminate|reflexivity] | repeat split]|exact I|]). apply firm_nil.
Qed.
(** the hypotheses hold of a text, and what the theorem then says *)
Example C99_sample : firm sample /\ words_of ascii_udb (lit "I sold R & D a toy & Tom  & A B & C Inc & & A & B C ") (flat_map pieces sample) /\
  map token sample = map lit ["I"; "sold"; "R&D"; "a"; "toy"; "&"; "Tom"; "&"; "AB&C"; "Inc"; "&"; "&"; "A&BC"]%string.
Proof.
  split; [exact sample_firm|]. split; [|reflexivity].
  destruct (words_of_total ascii_udb (lit "I sold R & D a toy & Tom  & A B & C Inc & & A & B C ")) as (l & H). pose proof (words_of_fun _ _ _ H) as E. vm_compute in E. subst l. exact H.
Qed.
Example C99_run : tokenize ascii_udb (lit "I sold R & D a toy & Tom  & A B & C Inc & & A & B C ") = Ok (map token sample).
Proof. apply (C99_names ascii_udb ascii_udb_ok); [discriminate|exact sample_firm|]. apply C99_sample. Qed.
(** the model run on the same text *)
Example C99_computed : tokenize ascii_udb (lit "I sold R & D a toy & Tom  & A B & C Inc & & A & B C ") = Ok (map lit ["I"; "sold"; "R&D"; "a"; "toy"; "&"; "Tom"; "&"; "AB&C"; "Inc"; "&"; "&"; "A&BC"]%string).
Proof. vm_compute. reflexivity. Qed.
