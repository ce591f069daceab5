(* What an evaluation should report: told with the outputs of the network for the test samples, without the loops. *)
From Verif Require Import Base Num NeuronModel LayerModel NetModel StatModel StatSpec WaitModel DataModel DataSpec TrainModel TrainSpec.
Local Open Scope nat_scope.

Section S.
Context {N : Num}.
(* a test sample: what is shown to the network, whether its memory is cleared before, whether the answer counts, what is expected *)
Record trial := mkTrial { t_inputs : list F; t_reset : bool; t_counts : bool; t_expected : list F }.
(* the answer o where y is expected, as a sample for the statistics; in a classification the class is the first entry of y that is 1 *)
Definition judged_as (p : problem) (separator precision : F) (o y : list F) (j : judged) : Prop :=
  match p with
  | regression => j = Regression o y precision
  | multipleClassification => j = MultipleClassification o y separator
  | classification => exists class v, nth_error y class = Some v /\ feqb v fone = true /\
      (forall i u, i < class -> nth_error y i = Some u -> feqb u fone = false) /\ j = Classification o class separator
  end.
(* the network is shown the trials one after the other; [js] are its answers that count *)
Inductive answers (p : problem) (separator precision : F) : Net -> list trial -> list judged -> Net -> Prop :=
| an_none n : answers p separator precision n [] [] n
| an_counts n t o n1 j rest js n' : t_counts t = true -> net_output n (t_inputs t) (t_reset t) = Ok (o, n1) -> judged_as p separator precision o (t_expected t) j ->
    answers p separator precision n1 rest js n' -> answers p separator precision n (t :: rest) (j :: js) n'
| an_skips n t o n1 rest js n' : t_counts t = false -> net_output n (t_inputs t) (t_reset t) = Ok (o, n1) ->
    answers p separator precision n1 rest js n' -> answers p separator precision n (t :: rest) js n'.
(* the evaluation of a network: all trials, and the statistics are those of a test with its answers; or it was given up after some of
   the trials because the network had produced an abnormal value, and the results are set to NaN *)
Definition evaluated (p : problem) (separator precision : F) (trials : list trial) (before after : Snn) : Prop :=
  (exists js, answers p separator precision (sn_net before) trials js (sn_net after) /\ test (sn_stats before) js = Ok (sn_stats after)) \/
  (nn_nan (sn_net after) = true /\ exists shown left js st nan, trials = shown ++ left /\ left <> [] /\ answers p separator precision (sn_net before) shown js (sn_net after) /\
     count_test (sn_stats before) js = Ok st /\ sn_stats after = setResultsAsNan nan st).

(* the trials of a data set: plain samples; a time series, whose first sample clears the memory; sequences, whose first sample clears the
   memory and of which the last answer counts *)
Definition plain_trials (ins labels : list (list F)) : list trial := map (fun s => mkTrial (fst s) false true (snd s)) (combine ins labels).
Definition series_trials (ins labels : list (list F)) : list trial :=
  map (fun s => mkTrial (fst (snd s)) (fst s =? 0) true (snd (snd s))) (combine (seq 0 (List.length ins)) (combine ins labels)).
Definition sequence_rows (v : list (list F)) : list (list F * (bool * bool)) :=
  map (fun s => (snd s, (fst s =? 0, S (fst s) =? List.length v))) (combine (seq 0 (List.length v)) v).
Definition sequence_trials (seqs : list (list (list F))) (labels : list (list F)) : list trial :=
  map (fun s => mkTrial (fst (fst s)) (fst (snd (fst s))) (snd (snd (fst s))) (snd s)) (combine (flat_map sequence_rows seqs) labels).
(* [tests d trials p separator precision]: a data set made by the user, possibly shuffled or used in trainings since *)
Inductive tests : Data -> list trial -> problem -> F -> F -> Prop :=
| te_plain p trIn trLab teIn teLab rec d : mkData4 p trIn trLab teIn teLab nonTemporal rec = Ok d -> List.length teIn = List.length teLab ->
    tests d (plain_trials teIn teLab) p (flit 1 2) (flit 1 10)
| te_series p trIn trLab teIn teLab rec d : mkData4 p trIn trLab teIn teLab timeSeries rec = Ok d -> List.length teIn = List.length teLab ->
    tests d (series_trials teIn teLab) p (flit 1 2) (flit 1 10)
| te_sequences p trIn trLab teIn teLab rec d : mkData4_3D p trIn trLab teIn teLab sequential rec = Ok d ->
    Forall (fun v => v <> []) trIn -> Forall (fun v => v <> []) teIn -> List.length (concat teIn) = List.length teLab ->
    tests d (sequence_trials teIn teLab) p (flit 1 2) (flit 1 10)
| te_separator d ts p sep prec v d' : tests d ts p sep prec -> setSeparator v d = Ok d' -> tests d' ts p v prec
| te_precision d ts p sep prec v d' : tests d ts p sep prec -> setPrecision v d = Ok d' -> tests d' ts p sep v
| te_op d ts p sep prec o d' : tests d ts p sep prec -> run_op d o = Ok d' -> tests d' ts p sep prec
| te_trained d ts p sep prec fuel env w b f s r : tests d ts p sep prec -> train fuel env w b f s d = Some (Ok r) -> tests (r_data r) ts p sep prec.

(* the network as it was at the end of a part of a log *)
Definition state_after (s : Snn) (log : list TrainModel.event) : Snn :=
  fold_left (fun s e => match e with Stepped _ _ _ _ s' | Evaluated s' | Saved _ s' => s' | Shuffled => s end) log s.
End S.
