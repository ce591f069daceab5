(* Specification vocabulary for evaluation statistics. *)
From Verif Require Import Base Num StatModel.
Local Open Scope outcome_scope.

Section S.
Context {N : Num}.

(* one evaluated sample: the outputs of the network and what was expected *)
Inductive judged :=
| Regression (outputs desired : list F) (precision : F)
| MultipleClassification (outputs desired : list F) (separator : F)
| Classification (outputs : list F) (label : nat) (separator : F).
Definition judge (s : Stats) (j : judged) : outcome Stats :=
  match j with
  | Regression os ds p => evaluateOnceForRegression s os ds p
  | MultipleClassification os ds sep => evaluateOnceForMultipleClassification s os ds sep
  | Classification os lab sep => evaluateOnceForClassification s os (Z.of_nat lab) sep
  end.
(* a whole test: counters cleared, every sample judged, results computed *)
Definition count_test (s : Stats) (js : list judged) : outcome Stats := ofold judge js (startTesting s).
Definition test (s : Stats) (js : list judged) : outcome Stats :=
  let* s' := count_test s js in Ok (stopTesting s').

(* ---- what should be counted ---- *)
Inductive kind := TP | TN | FP | FN.
Definition kind_eqb (a b : kind) : bool :=
  match a, b with TP, TP | TN, TN | FP, FP | FN, FN => true | _, _ => false end.
Definition at_ (i : nat) (l : list F) : F := nth i l fzero.
(* how output number i of a sample is counted; a regression output within the precision is a TN *)
Definition kind_of (i : nat) (j : judged) : kind :=
  match j with
  | Regression os ds p =>
      if fltb (fadd (at_ i ds) p) (at_ i os) then FP else if fltb (at_ i os) (fsub (at_ i ds) p) then FN else TN
  | MultipleClassification os ds sep =>
      match fltb sep (at_ i os), fltb sep (at_ i ds) with
      | true, true => TP | false, false => TN | true, false => FP | false, true => FN
      end
  | Classification os lab sep =>
      if Nat.eqb i lab then (if fltb sep (at_ i os) then TP else FN) else (if fltb sep (at_ i os) then FP else TN)
  end.
(* the sample is well treated *)
Definition correct (n : nat) (j : judged) : bool :=
  match j with
  | Regression os ds p =>
      forallb (fun i => negb (fltb (fadd (at_ i ds) p) (at_ i os)) && negb (fltb (at_ i os) (fsub (at_ i ds) p))) (seq 0 n)
  | MultipleClassification os ds sep =>
      forallb (fun i => Bool.eqb (fltb sep (at_ i os)) (fltb sep (at_ i ds))) (seq 0 n)
  | Classification os lab _ => (* the label's output is the first maximum, and above -2 *)
      Nat.ltb lab n && fltb (fofZ (-2)) (at_ lab os)
      && forallb (fun i => if Nat.ltb i lab then fltb (at_ i os) (at_ lab os) else negb (fltb (at_ lab os) (at_ i os))) (seq 0 n)
  end.
Definition count {A} (p : A -> bool) (l : list A) : nat := length (filter p l).

(* samples for a network with n outputs; every value is a number *)
Definition judged_ok (ok : F -> Prop) (n : nat) (j : judged) : Prop :=
  match j with
  | Regression os ds p => length os = n /\ length ds = n /\ Forall ok os /\ Forall ok ds
  | MultipleClassification os ds sep => length os = n /\ length ds = n /\ Forall ok os /\ Forall ok ds /\ ok sep
  | Classification os lab sep => length os = n /\ Forall ok os
  end.
(* the absolute error of output i *)
Definition error_of (i : nat) (j : judged) : F :=
  match j with
  | Regression os ds _ | MultipleClassification os ds _ => fabs (fsub (at_ i ds) (at_ i os))
  | Classification os lab _ => fabs (fsub (if Nat.eqb i lab then fone else fzero) (at_ i os))
  end.

(* the float counters are exact up to B *)
Definition counts_exactly_below (B : nat) : Prop := forall k, k < B -> fadd (fofnat k) fone = fofnat (S k).

(* ---- histories: tests, and tests abandoned because of a NaN ---- *)
Inductive event := Tested (js : list judged) | Abandoned (js : list judged) (nan : F).
Definition happen (s : Stats) (e : event) : outcome Stats :=
  match e with
  | Tested js => test s js
  | Abandoned js nan => let* s' := count_test s js in Ok (setResultsAsNan nan s')
  end.
Definition history (n : nat) (es : list event) : outcome Stats := ofold happen es (initialStats n).
(* the values [get] reports after each completed test *)
Fixpoint reports {A} (get : Stats -> A) (s : Stats) (es : list event) : list A :=
  match es with
  | [] => []
  | e :: es' => match happen s e with
                | Ok s' => match e with Tested _ => get s' :: reports get s' es' | _ => reports get s' es' end
                | _ => []
                end
  end.
End S.
