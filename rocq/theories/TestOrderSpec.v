(* Vocabulary for C79: the results of an evaluation and the order of the test samples. *)
From Verif Require Import Base Num NetModel StatModel TrainModel.

Section S.
Context {N : Num}.
(* the counters of the outputs and of the samples, the accuracies and the F1 score, their best values and whether they improved: everything
   but the sums of the errors, the mean absolute error and the root mean squared error *)
Definition counts_of (c : Cluster) : F * F * F * F := (c_tp c, c_tn c, c_fp c, c_fn c).
Definition same_but_errors (a b : Stats) : Prop :=
  map counts_of (st_clusters a) = map counts_of (st_clusters b) /\ st_well a = st_well b /\ st_mis a = st_mis b /\
  st_rate a = st_rate b /\ st_wrate a = st_wrate b /\ st_f1 a = st_f1 b /\ st_rateMax a = st_rateMax b /\ st_wrateMax a = st_wrateMax b /\ st_f1Max a = st_f1Max b /\
  st_rateBetter a = st_rateBetter b /\ st_wrateBetter a = st_wrateBetter b /\ st_f1Better a = st_f1Better b.
(* numbers whose sums do not depend on the order of the terms *)
Definition sums_commute : Prop := forall x a b : F, fadd (fadd x a) b = fadd (fadd x b) a.
End S.
