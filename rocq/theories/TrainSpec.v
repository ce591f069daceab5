(* Specification vocabulary for C13, C21, C42: what a training should do, told without its loops. *)
From Verif Require Import Base Num NeuronModel LayerModel NetModel StatModel WaitModel DataModel DataSpec TrainModel FactoryModel FactorySpec PureSpec.
From Coq Require Import Permutation.
Local Open Scope nat_scope.

(* a training seen from outside: the data are shuffled, a step is made on the batch at a position, the network is evaluated *)
Inductive mark := MShuffle | MStep (position : nat) | MEvaluate.

Section S.
Context {N : Num}.
Definition mark_of (e : event) : list mark :=
  match e with Shuffled => [MShuffle] | Stepped i _ _ _ _ => [MStep i] | Evaluated _ => [MEvaluate] | Saved _ _ => [] end.
Definition marks (log : list event) : list mark := flat_map mark_of log.

(* the positions 0, b, 2b, ... of the batches of b samples that fit in n samples *)
Definition positions (n b : nat) : list nat := map (fun k => k * b) (seq 0 (n / b)).
(* the e-th epoch over n samples in batches of b, evaluating after every f-th epoch *)
Definition one_epoch (n b : nat) (f : Z) (e : nat) : list mark :=
  MShuffle :: map MStep (positions n b) ++ (if (0 <? f)%Z && (Z.of_nat e mod f =? 0)%Z then [MEvaluate] else []).
Definition expected (n b epochs : nat) (f : Z) : list mark :=
  (if (0 <? f)%Z then [MEvaluate] else []) ++ flat_map (one_epoch n b f) (seq 1 epochs).

(* nobody asks the training to stop *)
Definition undisturbed (env : Env) : Prop := forall k, e_stop env k = false.
(* the random generators used for shuffling are permutations *)
Definition fair (env : Env) : Prop := forall k, fair_rng (e_rng env k).
(* Data a user may well pass: every sample has k inputs and m label values, as many labels as samples, the data set was accepted
   by its constructor, a time series is longer than its number of recurrences, a sequence is not empty, and in a classification
   every label row of the testing set contains a 1. *)
Definition has_one (y : list F) : Prop := exists v, In v y /\ feqb v fone = true.
Definition labels_ok (p : problem) (teLab : list (list F)) : Prop := p = classification -> Forall has_one teLab.
Inductive user_data (k m : nat) : Data -> Prop :=
| ud_plain p trIn trLab teIn teLab rec d : mkData4 p trIn trLab teIn teLab nonTemporal rec = Ok d ->
    List.length trIn = List.length trLab -> List.length teIn = List.length teLab -> rect k trIn -> rect m trLab -> rect k teIn -> rect m teLab ->
    labels_ok p teLab -> user_data k m d
| ud_series p trIn trLab teIn teLab rec d : mkData4 p trIn trLab teIn teLab timeSeries rec = Ok d ->
    List.length trIn = List.length trLab -> List.length teIn = List.length teLab -> rect k trIn -> rect m trLab -> rect k teIn -> rect m teLab ->
    labels_ok p teLab -> (rec + 1 <= Z.of_nat (List.length trLab))%Z -> user_data k m d
| ud_sequences p trIn trLab teIn teLab rec d : mkData4_3D p trIn trLab teIn teLab sequential rec = Ok d ->
    Forall (fun v => v <> []) trIn -> Forall (fun v => v <> []) teIn ->
    List.length (concat trIn) = List.length trLab -> List.length (concat teIn) = List.length teLab ->
    rect k (concat trIn) -> rect m trLab -> rect k (concat teIn) -> rect m teLab -> labels_ok p teLab -> user_data k m d
(* and the same data after any shuffling or a previous training *)
| ud_ops d o d' : user_data k m d -> fair_op o -> run_op d o = Ok d' -> user_data k m d'
| ud_trained fuel env w b f s d r : user_data k m d -> fair env -> train fuel env w b f s d = Some (Ok r) -> user_data k m (r_data r).

(* what a user may have done with a network since its construction: predictions, trainings (on data of the right format) that
   came to their end, saving, switching autosave *)
Inductive lived (k m : nat) : Snn -> Snn -> Prop :=
| lv_none s : lived k m s s
| lv_predict s0 s x reset o s1 : lived k m s0 s -> List.length x = k -> computeOutput s x reset = Ok (o, s1) -> lived k m s0 s1
| lv_cluster s0 s x reset o s1 : lived k m s0 s -> List.length x = k -> computeCluster s x reset = Ok (o, s1) -> lived k m s0 s1
| lv_train s0 s fuel env w b f d r : lived k m s0 s -> user_data k m d -> fair env -> train fuel env w b f s d = Some (Ok r) -> lived k m s0 (r_snn r)
| lv_evaluate s0 s env d r : lived k m s0 s -> user_data k m d -> evaluateData env s d = Ok r -> lived k m s0 (r_snn r)
| lv_save s0 s p d : lived k m s0 s -> forall r, saveAs p (mkRun s d 0 []) = Ok r -> lived k m s0 (r_snn r)
| lv_auto s0 s a p : lived k m s0 s -> lived k m s0 (mkSnn (sn_net s) (sn_stats s) (sn_want s) (sn_idle s) (sn_index s) (sn_epoch s) (sn_ntrain s) a p).
Definition hasNan (r : Run) : bool := nn_nan (sn_net (r_snn r)).

(* C21: an event after which the network is known to have produced an abnormal output, and an event that is part of the learning *)
Definition raised_by (e : event) : Prop :=
  match e with Stepped _ _ _ _ s | Evaluated s | Saved _ s => nn_nan (sn_net s) = true | Shuffled => False end.
Definition is_learning (e : event) : Prop := match e with Shuffled | Stepped _ _ _ _ _ => True | _ => False end.

(* C42: the accuracies reported by the evaluations, and a log in which a file is written right after exactly those evaluations whose
   accuracy is above [best] (the best one before the training) and above all the accuracies reported earlier in the training *)
Definition rates (log : list event) : list F := flat_map (fun e => match e with Evaluated s => [st_rate (sn_stats s)] | _ => [] end) log.
Definition better (best : F) (log : list event) (s : Snn) : Prop := Forall (fun x => fltb x (st_rate (sn_stats s)) = true) (best :: rates log).
Inductive autosaved (best : F) : list event -> Prop :=
| as_nil : autosaved best []
| as_other log e : autosaved best log -> is_learning e -> autosaved best (log ++ [e])
| as_save log s : autosaved best log -> sn_auto s = true -> better best log s -> autosaved best (log ++ [Evaluated s; Saved (sn_path s) s])
| as_eval log s : autosaved best log -> ~ (sn_auto s = true /\ better best log s) -> autosaved best (log ++ [Evaluated s]).

(* C56: the n-th batch of b samples of an ordered list of samples: the sample itself if b = 1, else the mean of the b samples *)
Definition sample : Type := (list F * list F)%type.
Definition batch_of (b n : nat) (order : list sample) (x y : list F) : Prop :=
  let rows := firstn b (skipn (n * b) order) in
  List.length rows = b /\ (if b =? 1 then rows = [(x, y)] else mean_of (map fst rows) x /\ mean_of (map snd rows) y).
(* [presents k b samples net log orders n net']: in [log] a network starts as [net] and ends as [net']; the samples were put in the orders
   [orders], one for each epoch started, and each step of an epoch is trainOnce, with the memory reset, on the next batch of b samples
   of the order of the epoch; n steps were made in the last epoch. Otherwise the network is only asked for outputs. *)
Inductive presents (k b : nat) (samples : list sample) (net : Net) : list event -> list (list sample) -> nat -> Net -> Prop :=
| ps_start : presents k b samples net [] [] 0 net
| ps_shuffle log orders n net' order : presents k b samples net log orders n net' -> Permutation order samples ->
    presents k b samples net (log ++ [Shuffled]) (orders ++ [order]) 0 net'
| ps_step log orders order n net' x y rand s : presents k b samples net log (orders ++ [order]) n net' -> batch_of b n order x y ->
    trainOnce rand net' x y true = Ok (sn_net s) -> presents k b samples net (log ++ [Stepped (n * b) true x y s]) (orders ++ [order]) (S n) (sn_net s)
| ps_evaluate log orders n net' s : presents k b samples net log orders n net' -> looks k net' (sn_net s) -> presents k b samples net (log ++ [Evaluated s]) orders n (sn_net s)
| ps_save log orders n net' p s : presents k b samples net log orders n net' -> sn_net s = net' -> presents k b samples net (log ++ [Saved p s]) orders n net'.
(* a data set after any shufflings, unshufflings and trainings *)
Inductive reused (d0 : Data) : Data -> Prop :=
| re_none : reused d0 d0
| re_op d o d' : reused d0 d -> fair_op o -> run_op d o = Ok d' -> reused d0 d'
| re_train fuel env w b f s d r : reused d0 d -> fair env -> train fuel env w b f s d = Some (Ok r) -> reused d0 (r_data r).
End S.
