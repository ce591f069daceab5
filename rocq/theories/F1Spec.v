(* The scores of a test, told from the samples: recall, F1 score of a class and their means over the classes. *)
From Coq Require Import Reals.
From Verif Require Import Base Num StatModel StatSpec.

Section S.
Context {N : Num}.
(* the sample belongs to class i: what was expected of it *)
Definition belongs (i : nat) (j : judged) : bool :=
  match j with
  | Classification _ label _ => Nat.eqb i label
  | MultipleClassification _ desired separator => fltb separator (at_ i desired)
  | Regression _ _ _ => false
  end.
(* the network said the sample belongs to class i: its output i is above the separator *)
Definition claimed (i : nat) (j : judged) : bool :=
  match j with
  | Classification outputs _ separator | MultipleClassification outputs _ separator => fltb separator (at_ i outputs)
  | Regression _ _ _ => false
  end.
Definition classifies (j : judged) : Prop := match j with Regression _ _ _ => False | _ => True end.
Definition hits (i : nat) (js : list judged) : nat := count (fun j => belongs i j && claimed i j) js.
(* the part of the members of the class that were found; a class without members counts for 0 *)
Definition recall (i : nat) (js : list judged) : R :=
  match count (belongs i) js with 0 => 0%R | members => (INR (hits i js) / INR members)%R end.
(* twice the hits over members plus claims (the harmonic mean of precision and recall); 0 when there are neither *)
Definition f1 (i : nat) (js : list judged) : R :=
  match (count (belongs i) js + count (claimed i) js)%nat with 0 => 0%R | both => (2 * INR (hits i js) / INR both)%R end.
Definition total (f : nat -> R) (n : nat) : R := fold_right Rplus 0%R (map f (seq 0 n)).
Definition mean_over_classes (f : nat -> R) (n : nat) : R := (total f n / INR n)%R.
(* class i is perfectly recognised: it occurs, and is claimed exactly for its members *)
Definition occurs (i : nat) (js : list judged) : Prop := exists j, In j js /\ belongs i j = true.
Definition found (i : nat) (js : list judged) : Prop := forall j, In j js -> belongs i j = true -> claimed i j = true.
Definition recognised (i : nat) (js : list judged) : Prop := forall j, In j js -> claimed i j = belongs i j.
End S.
