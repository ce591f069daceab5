(* C65 for the evaluations of a training. *)
From Coq Require Import Reals Lra.
From Verif Require Import Base Num NumOrder NeuronModel LayerModel NetModel HistProofs StatModel StatSpec StatProofs WaitModel DataModel DataSpec DataProofs SeqProofs TrainModel TrainSpec TrainProofs EvalSpec EvalProofs PureSpec PureProps.
From Verif Require Import FactorySpec TrainSafe TrainUser EvalSized StatReal Float32 Witness StatProps FactoryModel FactoryProps DataProps TrainProps EvalProps F1Spec F1Proofs F1Float F1Props.
Local Open Scope nat_scope.
Local Open Scope outcome_scope.

Lemma answers_classify {N : Num} p sep prec n ts js n' : answers p sep prec n ts js n' -> p <> regression -> Forall classifies js.
Proof.
  induction 1 as [|n t o n1 j rest js n' Hc E Hj _ IH|n t o n1 rest js n' Hc E _ IH]; intros Hp; auto. constructor; auto.
  destruct p; cbn [judged_as] in Hj; [destruct Hj as (c & v & _ & _ & _ & ->); exact I|subst j; exact I|congruence].
Qed.
Lemma answers_regression {N : Num} sep prec n ts js n' : answers regression sep prec n ts js n' -> Forall (fun j => ~ classifies j) js.
Proof.
  remember regression as p. induction 1 as [|n t o n1 j rest js n' Hc E Hj _ IH|n t o n1 rest js n' Hc E _ IH]; auto. constructor; auto. subst p. cbn [judged_as] in Hj. subst j. intros X. exact X.
Qed.
(* every evaluation of every training, of a network made by the constructor and used at will, when nothing abnormal came out: the scores the network object
   reports are those of its answers to the test samples *)
Theorem C65_evaluation_scores_real : forall draws masks ds lr mo s0 s d k m trials p separator precision fuel env w b f r before s1 after,
  @newSnn RNum draws masks ds lr mo = Ok s0 -> sane_descriptions ds -> Forall supported_pooling (nn_layers (sn_net s0)) -> product (d_shape (hd (Input []) ds)) = Ok (Z.of_nat k) ->
  net_numberOfOutputs (sn_net s0) = Ok m -> one_output_per_neuron s0 m -> 0 < m -> lived k m s0 s -> user_data k m d -> fair env ->
  tests d trials p separator precision -> p <> regression ->
  train fuel env w b f s d = Some (Ok r) -> r_log r = before ++ Evaluated s1 :: after -> nn_nan (sn_net s1) = false ->
  exists js, answers p separator precision (sn_net (state_after s before)) trials js (sn_net s1) /\
    st_wrate (sn_stats s1) = mean_over_classes (fun i => recall i js) m /\ st_f1 (sn_stats s1) = mean_over_classes (fun i => f1 i js) m.
Proof.
  intros draws masks ds lr mo s0 s d k m ts p sep prec fuel env w b f r before s1 after HN Hs HP Hk Hm H1 Hm0 HL HD Hf HT Hp H E Hnan.
  destruct (evaluation_judged RNum (fun _ => True) (fun _ _ => I) _ _ _ _ _ s0 s d k m ts p sep prec fuel env w b f r before s1 after HN Hs HP Hk Hm H1 HL HD Hf HT I) as (OB & js & A & J & B); auto.
  { apply Forall_forall. intros t _. apply Forall_forall. auto. }
  destruct (C65_scores_real m (sn_stats (state_after s before)) js Hm0 OB J (answers_classify _ _ _ _ _ _ _ A Hp)) as (st & E1 & E2 & E3 & _). rewrite B in E1. injection E1 as <-. eauto.
Qed.
Print Assumptions C65_evaluation_scores_real.
Theorem C65_evaluation_scores_float : forall expf tanhf draws masks ds lr mo s0 s d k m (trials : list (@trial (Num32 expf tanhf))) p (separator precision : @F (Num32 expf tanhf)) fuel env w b f r before s1 after,
  @newSnn (Num32 expf tanhf) draws masks ds lr mo = Ok s0 -> sane_descriptions ds -> Forall supported_pooling (nn_layers (sn_net s0)) -> product (d_shape (hd (Input []) ds)) = Ok (Z.of_nat k) ->
  net_numberOfOutputs (sn_net s0) = Ok m -> one_output_per_neuron s0 m -> 0 < m -> (Z.of_nat m <= 2 ^ 24)%Z -> lived k m s0 s -> user_data k m d -> fair env ->
  tests d trials p separator precision -> (Z.of_nat (List.length (filter t_counts trials)) <= 2 ^ 24)%Z ->
  not_nan separator -> Forall (fun t : @trial (Num32 expf tanhf) => Forall not_nan (t_expected t)) trials ->
  train fuel env w b f s d = Some (Ok r) -> r_log r = before ++ Evaluated s1 :: after -> nn_nan (sn_net s1) = false ->
  exists js u v, answers p separator precision (sn_net (state_after s before)) trials js (sn_net s1) /\ fin32 (st_wrate (sn_stats s1)) u /\ fin32 (st_f1 (sn_stats s1)) v /\
    (p = regression -> u = 0%R /\ v = 0%R) /\
    (p <> regression -> (0 <= u <= 1)%R /\ (0 <= v <= 1)%R /\
       ((forall i, i < m -> occurs i js /\ found i js) -> u = 1%R) /\ ((forall i, i < m -> occurs i js /\ recognised i js) -> v = 1%R)).
Proof.
  intros expf tanhf draws masks ds lr mo s0 s d k m ts p sep prec fuel env w b f r before s1 after HN Hs HP Hk Hm H1 Hm0 Hm24 HL HD Hf HT Hb Osep Oy H E Hnan.
  destruct (evaluation_judged (Num32 expf tanhf) not_nan (normal32_not_nan expf tanhf) _ _ _ _ _ s0 s d k m ts p sep prec fuel env w b f r before s1 after HN Hs HP Hk Hm H1 HL HD Hf HT Osep) as (OB & js & A & J & B); auto.
  pose proof (answers_length _ _ _ _ _ _ _ A) as L. assert (HB : (Z.of_nat (List.length js) <= 2 ^ 24)%Z) by now rewrite L.
  assert (D : p = regression \/ p <> regression) by (destruct p; auto; right; discriminate). destruct D as [->|Hp].
  - destruct (C65_regression_scores_zero expf tanhf m (sn_stats (state_after s before)) js Hm0 Hm24 OB J HB (answers_regression _ _ _ _ _ _ A)) as (st & E1 & E2 & E3). rewrite B in E1. injection E1 as <-.
    exists js, 0%R, 0%R. split; [exact A|]. split; [exact E2|]. split; [exact E3|]. split; [auto|intros X; congruence].
  - destruct (C65_scores_float expf tanhf m (sn_stats (state_after s before)) js Hm0 Hm24 OB J HB (answers_classify _ _ _ _ _ _ _ A Hp)) as (st & u & v & E1 & E2 & E3 & E4). rewrite B in E1. injection E1 as <-.
    exists js, u, v. split; [exact A|]. split; [exact E2|]. split; [exact E3|]. split; [intros X; congruence|intros _; exact E4].
Qed.
Print Assumptions C65_evaluation_scores_float.
(* their hypotheses: C58_hypotheses, with two outputs and a classification *)
