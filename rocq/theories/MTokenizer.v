(** Model of scrappybara/preprocessing/sanitization.py and scrappybara/preprocessing/tokenizer.py. *)
From Coq Require Import Ascii String.
From Coq Require Import List NArith ZArith Arith Bool Lia.
From Verif Require Import PyBase Regex.
Import ListNotations.

(** A compiled pattern with its IGNORECASE flag and its replacement template. *)
Record rule := { r_pat : re; r_ic : bool; r_rep : template }.
Definition apply_rule (U : udb) (s : str) (ru : rule) : str := sub U (r_ic ru) (r_pat ru) (r_rep ru) s.

Definition sp : re := Chr (cls [CSpace]).                    (* \s *)
Definition tl_ (s : string) : titem := TLit (lit s).
Definition g (n : nat) : titem := TGrp n.
Definition mk (p : re) (ic : bool) (t : template) : rule := {| r_pat := p; r_ic := ic; r_rep := t |}.

(** sanitization.py:4-12 [sanitize]. A non-string argument (AttributeError caught at line 11) is not
    modelled: the argument is a string. *)
Definition sanitize (U : udb) (rules : list rule) (text : str) : str :=
  let text := strip (u_space U) text in
  let text := fold_left (apply_rule U) rules text in
  join (lit " ") (split_ws (u_space U) text).

(** tokenizer.py:12-16 [__re_sanitization] *)
Definition tk_sanitization : list rule := [
  mk (Chr (cls [CRange 8216 8216; CRange 8217 8217; CRange 8242 8242])) false [tl_ "'"];      (* [‘’′] *)
  mk (Chr (cls [CRange 8220 8220; CRange 8221 8221; CRange 8243 8243])) false [TLit [34%N]];  (* [“”″] *)
  mk (plus (Chr (cls [CRange 8211 8211; CRange 8212 8212]))) false [tl_ " - "]                (* [–—]+ *)
].

Definition not_sp_dot : re := Chr (ncls [CSpace; CRange 46 46]).   (* [^\s.] *)
Definition not_sp : re := Chr (ncls [CSpace]).                     (* [^\s] *)
Definition dot : re := ch 46.
Definition colon_semi : re := Chr (cls (one ":;")).

(** tokenizer.py:22-28 [__re_protect], all with re.I *)
Definition re_protect : list re := [
  (* \s'n'\s *)
  seqs [sp; w "'n'"; sp];
  (* \s('n|n')\s *)
  seqs [sp; Grp 1 (alts [w "'n"; w "n'"]); sp];
  (* (https?://|www\.)[^\s.]+(\.[^\s.]+)+(/[^\s]* )*   without the space *)
  seqs [Grp 1 (alts [seqs [w "http"; opt (ch 115); w "://"]; w "www."]); plus not_sp_dot;
        plus (Grp 2 (Seq dot (plus not_sp_dot))); star (Grp 3 (Seq (ch 47) (star not_sp)))];
  (* [^\s.]+(\.[^\s.]+)+/[^\s]* *)
  seqs [plus not_sp_dot; plus (Grp 1 (Seq dot (plus not_sp_dot))); ch 47; star not_sp];
  (* ([:;]-?\))|([:;]-?\() *)
  alts [Grp 1 (seqs [colon_semi; opt (ch 45); ch 41]); Grp 2 (seqs [colon_semi; opt (ch 45); ch 40])]
].

(** tokenizer.py:33-42 *)
Definition nsd := lit "_NSD_".
Definition nsge := lit "_NSGE_".
Definition nsle := lit "_NSLE_".
Definition rnsge := lit "_RNSGE_".
Definition rnsle := lit "_RNSLE_".

(** tokenizer.py:47-58 [__abbr] *)
Definition abbr : list string :=
  ["m"; "mr"; "mrs"; "ms"; "sr"; "dr"; "prof"; "rev"; "gov"; "sen"; "rep"; "lt"; "sgt"; "ave"; "st"; "ed"; "feat"]%string.

Definition dig : re := Chr (cls [CDigit]).                                   (* \d *)
Definition wd : re := Chr (cls [CWord]).                                     (* \w *)
Definition lc : re := Chr (cls [az]).                                        (* [a-z] *)
Definition uc : re := Chr (cls [AZ]).                                        (* [A-Z] *)
Definition letter : re := Chr (cls [az; AZ]).                                (* [a-zA-Z] *)
Definition number : re := Seq dig (star (Chr (cls [CDigit; CRange 44 44; CRange 46 46]))). (* \d[\d,.]* *)
Definition after_sp : re := Behind true [cls [CSpace]].                      (* (?<=\s) *)
Definition sp_or_end : re := Look true (alts [sp; Eol]).                     (* (?=\s|$) *)

(** tokenizer.py:62-77 [__re_no_split] *)
Definition re_no_split : list rule := [
  mk (seqs [dot; Look true (seqs [sp; lc])]) false [TLit nsd];                           (* \.(?=\s[a-z]) *)
  mk (seqs [dot; Look true (seqs [opt sp; Chr (cls (one ",:;?!"))])]) false [TLit nsd];  (* \.(?=\s?[,:;?!]) *)
  mk (seqs [dot; Look true (seqs [sp; plus dig; Bound true])]) false [TLit nsd];         (* \.(?=\s\d+\b) *)
  (* \b(m|mr|...)\.(?=\s[A-Z]) *)
  mk (seqs [Bound true; Grp 1 (alts (map w abbr)); dot; Look true (seqs [sp; uc])]) true [g 1; TLit nsd];
  (* (?<=\s)(\d[\d,.]* )\'(\d[\d,.]* )QUOTE   without the spaces *)
  mk (seqs [after_sp; Grp 1 number; ch 39; Grp 2 number; ch 34]) true [g 1; tl_ "ft"; g 2; tl_ "in"];
  mk (seqs [after_sp; Grp 1 number; ch 39]) true [g 1; tl_ "ft"];                        (* (?<=\s)(\d[\d,.]* )\' *)
  mk (seqs [after_sp; Grp 1 number; ch 34]) true [g 1; tl_ "in"];                        (* (?<=\s)(\d[\d,.]* )QUOTE *)
  mk (seqs [opt sp; ch 62; opt sp; ch 61; opt sp]) true [TLit nsge];                     (* \s?>\s?=\s? *)
  mk (seqs [opt sp; ch 60; opt sp; ch 61; opt sp]) true [TLit nsle];                     (* \s?<\s?=\s? *)
  mk (seqs [opt sp; ch 61; opt sp; ch 62; opt sp]) true [TLit rnsge];                    (* \s?=\s?>\s? *)
  mk (seqs [opt sp; ch 61; opt sp; ch 60; opt sp]) true [TLit rnsle]                     (* \s?=\s?<\s? *)
].

(** tokenizer.py:82 [__re_always_split] with the template r' \g<0> ' of line 172 *)
Definition re_always_split : rule :=
  mk (Grp 1 (alts [two_plus (Chr (cls (one ".?!"))); plus (ch 8230); plus (ch 61); plus (ch 33); plus (ch 63);
                   plus (ch 34); plus (ch 59); plus (ch 124); plus (ch 92); plus (ch 40); plus (ch 41);
                   plus (ch 123); plus (ch 125); plus (ch 91); plus (ch 93); plus (ch 8211)]))
     false [tl_ " "; g 0; tl_ " "].

(** tokenizer.py:91-98 [__re_token_nosplit_dot], all with re.I, used with fullmatch *)
Definition not_dot : re := Chr (ncls [CRange 46 46]).                        (* [^.] *)
Definition re_token_nosplit_dot : list re := [
  two_plus (Grp 1 (Seq wd dot));                                             (* (\w\.){2,} *)
  seqs [opt dot; two_plus (Grp 1 (Seq (plus not_dot) dot)); plus not_dot];   (* \.?([^.]+\.){2,}[^.]+ *)
  Seq letter dot;                                                            (* [a-zA-Z]\. *)
  seqs [dig; dot; Look true (Grp 1 (Seq sp (Chr (ncls [AZ]))))];             (* \d\.(?=(\s[^A-Z])) *)
  two_plus (Grp 1 (Seq (plus dig) dot));                                     (* (\d+\.){2,} *)
  two_plus dot                                                               (* \.{2,} *)
].

(** tokenizer.py:102-105 [__re_token_split_dot] *)
Definition re_token_split_dot : list rule := [
  mk (seqs [Grp 1 (plus lc); Grp 2 dot; Grp 3 (Chr (cls [AZ; CRange 39 39]))]) false [g 1; tl_ " "; g 2; tl_ " "; g 3];
  mk (Seq dot Eol) false [tl_ " "; g 0]                                      (* \.$ *)
].

Definition word3 : re := seqs [letter; lc; lc; star lc].                      (* [a-zA-Z][a-z]{2,} *)
Definition clc : cset := cls [az].
Definition cwd : cset := cls [CWord].

(** tokenizer.py:110-149 [__re_segment_off] *)
Definition re_segment_off : list rule := [
  (* (?<=\b)(can)(not)(?=\b) *)
  mk (seqs [Bound true; Grp 1 (w "can"); Grp 2 (w "not"); Bound true]) true [g 1; tl_ " "; g 2];
  (* (?<=[a-z])\*+(?=[a-z]) *)
  mk (seqs [Behind true [clc]; plus (ch 42); Look true lc]) true [tl_ " * "];
  (* (?<=[a-z][a-z][a-z])\+(?=[a-z]{3,}) *)
  mk (seqs [Behind true [clc; clc; clc]; ch 43; Look true (three_plus lc)]) true [tl_ " + "];
  (* (\d+)\+(?=[a-z]) *)
  mk (seqs [Grp 1 (plus dig); ch 43; Look true lc]) true [g 1; tl_ "+ "];
  (* (?<=\b)&(?!\b) *)
  mk (seqs [Bound true; ch 38; Bound false]) false [tl_ " & "];
  (* (?<!\b)&(?=\b) *)
  mk (seqs [Bound false; ch 38; Bound true]) false [tl_ " & "];
  (* ([a-zA-Z][a-z]{2,})&([a-zA-Z][a-z]{2,}) *)
  mk (seqs [Grp 1 word3; ch 38; Grp 2 word3]) false [g 1; tl_ " & "; g 2];
  (* (?<=[a-z\d][a-z])/ *)
  mk (seqs [Behind true [cls [az; CDigit]; clc]; ch 47]) true [tl_ " / "];
  (* /(?=[a-z][a-z\d]) *)
  mk (seqs [ch 47; Look true (Seq lc (Chr (cls [az; CDigit])))]) true [tl_ " / "];
  (* (?<=[a-z])% *)
  mk (seqs [Behind true [clc]; ch 37]) true [tl_ " % "];
  (* %(?=[a-z]) *)
  mk (seqs [ch 37; Look true lc]) true [tl_ " % "];
  (* :(?=\s|$) *)
  mk (seqs [ch 58; sp_or_end]) false [tl_ " : "];
  (* (?<=\s): *)
  mk (seqs [after_sp; ch 58]) false [tl_ " : "];
  (* ([a-zA-Z][a-z]{2,}):([a-zA-Z][a-zA-Z]+) *)
  mk (seqs [Grp 1 word3; ch 58; Grp 2 (Seq letter (plus letter))]) false [g 1; tl_ " : "; g 2];
  (* ([a-z]{3,}):(\d+) *)
  mk (seqs [Grp 1 (three_plus lc); ch 58; Grp 2 (plus dig)]) true [g 1; tl_ " : "; g 2];
  (* ([0-9]+):([a-zA-Z]+) *)
  mk (seqs [Grp 1 (plus (Chr (cls [d09]))); ch 58; Grp 2 (plus letter)]) true [g 1; tl_ " : "; g 2];
  (* (?<!-)> *)
  mk (seqs [Behind false [cc 45]; ch 62]) false [tl_ " > "];
  (* <(?!-) *)
  mk (seqs [ch 60; Look false (ch 45)]) false [tl_ " < "];
  (* (?<!\d), *)
  mk (seqs [Behind false [cls [CDigit]]; ch 44]) false [tl_ " , "];
  (* ,(?!\d) *)
  mk (seqs [ch 44; Look false dig]) false [tl_ " , "];
  (* (^|\s)'(?!s) *)
  mk (seqs [Grp 1 (alts [Bol; sp]); ch 39; Look false (ch 115)]) false [tl_ " ' "];
  (* '(\s|$) *)
  mk (seqs [ch 39; Grp 1 (alts [sp; Eol])]) false [tl_ " ' "];
  (* (?<=\w\w\w)'(?=\w\w\w) *)
  mk (seqs [Behind true [cwd; cwd; cwd]; ch 39; Look true (seqs [wd; wd; wd])]) true [tl_ " ' "];
  (* (^|\s)'(?=s\w) *)
  mk (seqs [Grp 1 (alts [Bol; sp]); ch 39; Look true (Seq (ch 115) wd)]) true [tl_ " ' "];
  (* (n't|'re|'ll|'ve|'m|'d|'s)(?=\s|$) *)
  mk (seqs [Grp 1 (alts [w "n't"; w "'re"; w "'ll"; w "'ve"; w "'m"; w "'d"; w "'s"]); sp_or_end]) true
     [tl_ " "; g 1; tl_ " "];
  (* \s([*-])([a-zA-Z]+)(?=\s|$) *)
  mk (seqs [sp; Grp 1 (Chr (cls (one "*-"))); Grp 2 (plus letter); sp_or_end]) false
     [tl_ " "; g 1; tl_ " "; g 2; tl_ " "]
].

(** tokenizer.py:188-192 with the patterns of lines 34-42: restore protected symbols *)
Definition re_restore : list rule := [
  mk (word nsd) false [tl_ "."];
  mk (word nsge) false [tl_ " >= "];
  mk (word nsle) false [tl_ " <= "];
  mk (word rnsge) false [tl_ " => "];
  mk (word rnsle) false [tl_ " =< "]
].

(** tokenizer.py:154-159 [__re_reattach] *)
Definition re_reattach : list rule := [
  mk (seqs [Bound true; Grp 1 uc; sp; Grp 2 uc; sp; ch 38; sp; Grp 3 uc; Bound true]) false [g 1; g 2; tl_ "&"; g 3];
  mk (seqs [Bound true; Grp 1 uc; sp; ch 38; sp; Grp 2 uc; sp; Grp 3 uc; Bound true]) false [g 1; tl_ "&"; g 2; g 3];
  mk (seqs [Bound true; Grp 1 uc; sp; ch 38; sp; Grp 2 uc; Bound true]) false [g 1; tl_ "&"; g 2];
  mk (seqs [Grp 1 (two_plus dot); ch 32; dot]) false [g 1; tl_ "."]
].

Section Tokenizer.
  Context (U : udb).

  (** tokenizer.py:209: the key of a protected token *)
  Definition protect_key (index : nat) : str := lit "_PROTECTED_" ++ str_of_nat index ++ lit "_".

  (** tokenizer.py:206-213: the inner while loop for one pattern *)
  Fixpoint protect_loop (fuel : nat) (p : re) (prot : dict str str) (index : nat) (text : str)
    : res (dict str str * nat * str) :=
    match search U true p text with
    | None => Ok (prot, index, text)
    | Some (b, st) =>
      match fuel with
      | O => Err OutOfFuel
      | S f =>
        let token := matched b st in
        let key := protect_key index in
        protect_loop f p (dset str_eqb key token prot) (S index) (replace text token key)
      end
    end.

  (** tokenizer.py:201-214 [__protect_text] *)
  Definition protect_text (text : str) : res (dict str str * str) :=
    let! (prot, _, text') :=
      foldM (fun '(prot, index, t) p => protect_loop (length t) p prot index t) ([], 1, text) re_protect in
    Ok (prot, text').

  (** tokenizer.py:175-181: one token of the dots pass *)
  Definition split_dots (token : str) : list str :=
    if existsb (fun p => match fullmatch U true p token with Some _ => true | None => false end) re_token_nosplit_dot
    then [token]
    else split_ws (u_space U) (fold_left (apply_rule U) re_token_split_dot token).

  (** tokenizer.py:161-199 [__call__] *)
  Definition tokenize (text : str) : res (list str) :=
    match text with
    | [] => Ok [[]]
    | _ =>
      let text := sanitize U tk_sanitization text in
      let! (prot, text) := protect_text text in
      let text := fold_left (apply_rule U) re_no_split text in
      let text := apply_rule U text re_always_split in
      let text := join (lit " ") (flat_map split_dots (split_ws (u_space U) text)) in
      let text := fold_left (apply_rule U) re_segment_off text in
      let text := join (lit " ") (split_ws (u_space U) text) in
      let text := fold_left (apply_rule U) re_restore text in
      let text := fold_left (apply_rule U) re_reattach text in
      let text := fold_left (fun t '(key, value) => replace t key value) prot text in
      Ok (split_ws (u_space U) text)
    end.
End Tokenizer.

(** Printing helper for computations on ASCII texts. *)
Fixpoint show (s : str) : string :=
  match s with [] => EmptyString | c :: s' => String (ascii_of_N c) (show s') end.
Definition tok_ascii (s : string) : res (list string) :=
  let! l := tokenize ascii_udb (lit s) in Ok (map show l).
