(** C84: the warnings of a labelled sentence as a JSON text (syntax/labelled_data.py:125-134). *)
From Coq Require Import Ascii String.
From Coq Require Import List NArith ZArith Arith Bool Lia.
From Verif Require Import PyBase Regex MUtils MBuilder MWarn SUtils SJson LBase LText LJson PUtils.
Import ListNotations.
Local Open Scope nat_scope.

(** the warnings after some calls: (token idx, (comment, focus idxs)) *)
Definition warned (calls : list (Z * (str * list Z))) : warnings :=
  fold_left (fun w '(idx, (comment, focus)) => register_warning w idx comment focus) calls [].
(** the object of a warning in the text *)
Definition warning_object (w : str * list Z) : json := JObj [(lit "comment", JStr (fst w)); (lit "focusIdxs", JList (map JInt (snd w)))].

(** * C84 *)
(** Without warning there is no text. Otherwise the text is a JSON object with one member for each token that has warnings, in the order of their
    first warnings; the key of the member reads as the index of the token, and its value is the list of the warnings of the token, in order. *)
Theorem C84_warnings : forall calls,
  (warnings_json (warned calls) = None <-> calls = []) /\
  (forall text, warnings_json (warned calls) = Some text ->
     exists idxs keys, json_read text = Some (JObj (combine keys (map (fun idx => JList (map warning_object (values_of Z.eqb idx calls))) idxs))) /\
       Forall2 (fun key idx => json_read key = Some (JInt idx)) keys idxs /\
       NoDup idxs /\ idxs = firsts Z.eqb (map fst calls) /\ forall idx, In idx idxs <-> In idx (map fst calls)).
Proof.
  intros calls. assert (EW : warned calls = fold_left (fun d '(k, v) => append_to_dict_list Z.eqb d k v) calls []).
  { unfold warned. generalize (@nil (Z * list (str * list Z))). induction calls as [|[i [c f]] calls IH]; intros w; cbn; [reflexivity|]. apply IH. }
  destruct (C70_grouping Z (str * list Z) Z.eqb Z.eqb_eq calls) as (H1 & H2 & H3). rewrite <- EW in H1, H2, H3.
  assert (HF : forall k, In k (firsts Z.eqb (map fst calls)) <-> In k (map fst calls)).
  { intros k. rewrite <- H1. rewrite in_map_iff. split; [intros ([k' vs] & <- & Hi); apply H3 in Hi; tauto|].
    intros Hi. exists (k, values_of Z.eqb k calls). split; [reflexivity|]. apply H3. auto. }
  split.
  - split; [|intros ->; reflexivity]. intros E. destruct calls as [|[i w] calls]; [reflexivity|]. exfalso.
    assert (Hi : In i (map fst (warned ((i, w) :: calls)))) by (rewrite H1; apply HF; left; reflexivity).
    destruct (warned ((i, w) :: calls)); [destruct Hi|discriminate].
  - intros text E. exists (firsts Z.eqb (map fst calls)), (map int_repr (firsts Z.eqb (map fst calls))).
    split; [|split; [|split; [rewrite <- H1; exact H2|split; [reflexivity|exact HF]]]].
    + assert (ET : text = dumps (JObj (map (fun '(k, l) => (int_repr k, JList (map warning_json l))) (warned calls)))) by (destruct (warned calls); [discriminate|injection E as <-; reflexivity]).
      rewrite ET, json_read_dumps. do 2 f_equal. rewrite <- H1.
      assert (HV : forall k vs, In (k, vs) (warned calls) -> vs = values_of Z.eqb k calls) by (intros k vs Hi; apply H3 in Hi; tauto).
      revert HV. generalize (warned calls) as w. clear. induction w as [|[k vs] w IH]; intros HV; [reflexivity|]. cbn. rewrite IH by (intros; apply HV; right; assumption).
      rewrite <- (HV k vs) by (left; reflexivity). reflexivity.
    + generalize (firsts Z.eqb (map fst calls)). clear. intros l. induction l; cbn; constructor; [apply json_read_int|assumption].
Qed.
(** Every value that can be written is read back. *)
Theorem C84_read_back : forall v, json_read (dumps v) = Some v.
Proof. exact json_read_dumps. Qed.

Definition c84_calls : list (Z * (str * list Z)) :=
  [(12%Z, (lit "odd " ++ [34; 8217; 92; 10; 1]%N, [3; 0]%Z)); ((-1)%Z, (lit "b", [])); (12%Z, (lit "", [-40]%Z))].
Example C84_witness : exists text, warnings_json (warned c84_calls) = Some text /\
  text = lit "{""12"": [{""comment"": ""odd \""" ++ [8217%N] ++ lit "\\\n\u0001"", ""focusIdxs"": [3, 0]}, {""comment"": """", ""focusIdxs"": [-40]}], ""-1"": [{""comment"": ""b"", ""focusIdxs"": []}]}" /\
  json_read text = Some (JObj [(lit "12", JList [warning_object (lit "odd " ++ [34; 8217; 92; 10; 1]%N, [3; 0]%Z); warning_object ([], [-40]%Z)]); (lit "-1", JList [warning_object (lit "b", [])])]) /\
  json_read (lit " [ 1 , ""A\/"" ,{}] ") = Some (JList [JInt 1; JStr (lit "A/"); JObj []]) /\ json_read (lit "[01]") = None.
Proof. eexists. split; [vm_compute; reflexivity|]. split; [vm_compute; reflexivity|]. split; [vm_compute; reflexivity|]. split; vm_compute; reflexivity. Qed.

Print Assumptions C84_warnings.
Print Assumptions C84_read_back.
