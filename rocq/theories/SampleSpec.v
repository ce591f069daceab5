(* What the user handed over to a data set, and what may have happened to the data set since (C62). *)
From Verif Require Import Base Num DataModel DataSpec WaitModel NetModel TrainModel TrainSpec.
Local Open Scope nat_scope.

Section S.
Context {N : Num}.
(* [given trIn trLab teIn teLab d]: d was made from these samples, one label per sample, by one of the four constructors, and has since
   been shuffled, unshuffled, read, trained on and evaluated on by any networks, any number of times, and had its settings changed *)
Inductive given (trIn trLab teIn teLab : list (list F)) : Data -> Prop :=
| gi_four p n rec d : n <> sequential -> mkData4 p trIn trLab teIn teLab n rec = Ok d -> given trIn trLab teIn teLab d
| gi_two p n rec d : n <> sequential -> teIn = trIn -> teLab = trLab -> mkData2 p trIn trLab n rec = Ok d -> given trIn trLab teIn teLab d
| gi_four3 p tr3 te3 rec d : mkData4_3D p tr3 trLab te3 teLab sequential rec = Ok d -> Forall (fun v => v <> []) tr3 -> Forall (fun v => v <> []) te3 ->
    trIn = concat tr3 -> teIn = concat te3 -> given trIn trLab teIn teLab d
| gi_two3 p tr3 rec d : mkData2_3D p tr3 trLab sequential rec = Ok d -> Forall (fun v => v <> []) tr3 ->
    trIn = concat tr3 -> teIn = concat tr3 -> teLab = trLab -> given trIn trLab teIn teLab d
| gi_op d o d' : given trIn trLab teIn teLab d -> run_op d o = Ok d' -> given trIn trLab teIn teLab d'
| gi_data d i b x d' : given trIn trLab teIn teLab d -> getTrainingData d i b = Ok (x, d') -> given trIn trLab teIn teLab d'
| gi_outputs d i b y d' : given trIn trLab teIn teLab d -> getTrainingOutputs d i b = Ok (y, d') -> given trIn trLab teIn teLab d'
| gi_separator d v d' : given trIn trLab teIn teLab d -> setSeparator v d = Ok d' -> given trIn trLab teIn teLab d'
| gi_precision d v d' : given trIn trLab teIn teLab d -> setPrecision v d = Ok d' -> given trIn trLab teIn teLab d'
| gi_evaluate d env s r : given trIn trLab teIn teLab d -> evaluateData env s d = Ok r -> given trIn trLab teIn teLab (r_data r)
| gi_train d fuel env w b f s r : given trIn trLab teIn teLab d -> train fuel env w b f s d = Some (Ok r) -> given trIn trLab teIn teLab (r_data r).
(* the row read as the class of a sample: the first 1 *)
Definition class_of (y : list F) (c : nat) : Prop :=
  exists v, nth_error y c = Some v /\ feqb v fone = true /\ forall i u, i < c -> nth_error y i = Some u -> feqb u fone = false.
End S.
