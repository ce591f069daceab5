(* Specification vocabulary for the stopping criteria. *)
From Verif Require Import Base Num ToolsModel WaitModel.
Local Open Scope outcome_scope.

Section S.
Context {N : Num}.

(* One criterion as the user writes it: 10_ep, 0.9_acc, 0.01_mae, 500_ms *)
Inductive criterion := Epochs (n : Z) | Accuracy (a : F) | Mae (m : F) | Milliseconds (d : Z).
Definition literal (c : criterion) : Wait :=
  match c with Epochs n => lit_ep n | Accuracy a => lit_acc a | Mae m => lit_mae m | Milliseconds d => lit_ms d end.

(* An expression over criteria, as parenthesised in the source program *)
Inductive expr := Lit (c : criterion) | Or (l r : expr) | And (l r : expr).
(* evaluation by the overloaded operators, left operand first *)
Fixpoint eval (e : expr) : outcome Wait :=
  match e with
  | Lit c => Ok (literal c)
  | Or l r => let* a := eval l in let* b := eval r in wait_or a b
  | And l r => let* a := eval l in let* b := eval r in wait_and a b
  end.
Fixpoint only_or (e : expr) : Prop := match e with Lit _ => True | Or l r => only_or l /\ only_or r | And _ _ => False end.
Fixpoint only_and (e : expr) : Prop := match e with Lit _ => True | And l r => only_and l /\ only_and r | Or _ _ => False end.
Fixpoint leaves (e : expr) : list criterion :=
  match e with Lit c => [c] | Or l r => leaves l ++ leaves r | And l r => leaves l ++ leaves r end.

(* when a criterion is met: epoch number [ep] (the one about to start), milliseconds, accuracy and MAE of the last
   evaluation.  n epochs have been done when epoch n+1 is about to start.  An accuracy or an error of 0 or
   below means "never evaluated". *)
Definition met (elapsed ep : Z) (acc mae : F) (c : criterion) : bool :=
  match c with
  | Epochs n => (n <? ep)%Z
  | Accuracy a => fgeb acc a && fgtb acc fzero
  | Mae m => fleb mae m && fgtb mae fzero
  | Milliseconds d => (d <=? elapsed)%Z
  end.

(* thresholds a literal can denote without wrapping: integers below 2^31, floats that are numbers >= 0 *)
Definition literal_ok (ok : F -> Prop) (c : criterion) : Prop :=
  match c with
  | Epochs n => (0 <= n <= int_max)%Z
  | Milliseconds d => (0 <= d <= int_max)%Z
  | Accuracy a => ok a /\ fltb a fzero = false
  | Mae m => ok m /\ fltb m fzero = false
  end.
Definition positive (c : criterion) : Prop :=
  match c with
  | Epochs n => (0 < n)%Z
  | Milliseconds d => (0 < d)%Z
  | Accuracy a => fltb fzero a = true
  | Mae _ => True
  end.
Definition not_mae (c : criterion) : Prop := match c with Mae _ => False | _ => True end.

(* some || has an &&-expression as its left operand, or some && has a ||-expression as its left operand *)
Fixpoint mixes_on_the_left (e : expr) : Prop :=
  match e with
  | Lit _ => False
  | Or l r => match l with And _ _ => True | _ => False end \/ mixes_on_the_left l \/ mixes_on_the_left r
  | And l r => match l with Or _ _ => True | _ => False end \/ mixes_on_the_left l \/ mixes_on_the_left r
  end.
End S.
