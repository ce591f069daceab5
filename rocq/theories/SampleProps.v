(* Property theorems about the samples of a data set over its life (C62). *)
From Verif Require Import Base Num NeuronModel LayerModel NetModel HistProofs StatModel WaitModel DataModel DataSpec DataProofs SeqProofs TrainModel TrainSpec TrainProofs EvalSpec EvalProofs SampleSpec.
From Verif Require Import TrainSafe TrainUser Float32 Witness FactoryModel FactoryProps DataProps TrainProps.
Local Open Scope nat_scope.
Local Open Scope outcome_scope.

Section P.
Context {N : Num}.
Implicit Types (d : Data) (r : Run).
(* ---- what changes the data of a training ---- *)
Section I.
Variable I : Data -> Prop.
Hypothesis I_shuffle : forall rng d d', shuffle rng d = Ok d' -> I d -> I d'.
Hypothesis I_data : forall d i b x d', getTrainingData d i b = Ok (x, d') -> I d -> I d'.
Hypothesis I_outputs : forall d i b x d', getTrainingOutputs d i b = Ok (x, d') -> I d -> I d'.
Lemma turn_data env b r r' : trainingTurn env b r = Ok r' -> I (r_data r) -> I (r_data r').
Proof. unfold trainingTurn. intros H HI. apply bind_Ok_inv in H as (nd & _ & H). destruct nd; binds H; injection H as <-; cbn [r_data]; eauto. Qed.
Lemma epoch_data env w b : forall fuel r early r', epochLoop fuel env w b r = Some (Ok (early, r')) -> I (r_data r) -> I (r_data r').
Proof.
  induction fuel as [|fuel IH]; intros r early r' H HI; [discriminate|]. cbn [epochLoop] in H. destruct (_ <=? _) in H; [|injection H as _ <-; exact HI].
  destruct (continueTraining env w r) as [go r1] eqn:Ec. assert (I1 : I (r_data r1)) by (unfold continueTraining in Ec; injection Ec as _ <-; exact HI).
  destruct go; [|injection H as _ <-; exact I1]. destruct (nn_nan (sn_net (r_snn r1))); [injection H as _ <-; exact I1|].
  destruct (trainingTurn env b r1) as [r2|z|] eqn:Et; try discriminate. apply IH in H; [exact H|]. exact (turn_data _ _ _ _ Et I1).
Qed.
Lemma evaluate_data env r r' : evaluate env r = Ok r' -> r_data r' = r_data r.
Proof. intros H. apply evaluate_keeps in H. apply H. Qed.
Lemma training_data env w b f : forall fuel r r', trainingLoop fuel env w b f r = Some (Ok r') -> I (r_data r) -> I (r_data r').
Proof.
  induction fuel as [|fuel IH]; intros r r' H HI; [discriminate|]. cbn [trainingLoop] in H.
  destruct (continueTraining env w r) as [go r1] eqn:Ec. assert (I1 : I (r_data r1)) by (unfold continueTraining in Ec; injection Ec as _ <-; exact HI).
  destruct go; [|injection H as <-; exact I1]. destruct (shuffle (e_rng env (r_checks r1)) (r_data r1)) as [d'|z|] eqn:Es; try discriminate. cbn [bind andThen] in H. apply I_shuffle in Es; [|exact I1].
  destruct (epochLoop (S fuel) env w b _) as [[[early r3]|z|]|] eqn:Ee; try discriminate H. apply epoch_data in Ee; [|exact Es].
  destruct early; [injection H as <-; exact Ee|].
  match type of H with andThen ?t _ = _ => destruct t as [r4|y|] eqn:Ev; cbn [andThen] in H; [|discriminate H|discriminate H] end.
  apply IH in H; [exact H|]. destruct (_ && _); [apply evaluate_data in Ev; cbn [upd r_data]; rewrite Ev; exact Ee|injection Ev as <-; exact Ee].
Qed.
Lemma train_data fuel env w b f s d r : train fuel env w b f s d = Some (Ok r) -> I d -> I (r_data r).
Proof.
  intros H HI. unfold train in H. destruct (validData s d b); try discriminate. destruct (negb (sn_idle s)); [discriminate|]. unfold trainSync in H.
  match type of H with andThen ?t _ = _ => destruct t as [r1|y|] eqn:Ev; cbn [andThen] in H; [|discriminate H|discriminate H] end.
  apply training_data in H; [exact H|]. destruct (0 <? f)%Z; [apply evaluate_data in Ev; cbn [upd r_data]; rewrite Ev; exact HI|injection Ev as <-; exact HI].
Qed.
End I.

(* ---- the stored samples ---- *)
Definition stored (trIn trLab teIn teLab : list (list F)) d : Prop :=
  s_inputs (d_train d) = trIn /\ s_labels (d_train d) = trLab /\ s_size (d_train d) = List.length trLab /\ s_inputs (d_test d) = teIn /\ s_labels (d_test d) = teLab /\ s_size (d_test d) = List.length teLab /\ trLab <> [].
Lemma shuffle_stored a b c e rng d d' : shuffle rng d = Ok d' -> stored a b c e d -> stored a b c e d'.
Proof. unfold shuffle. intros H. destruct (d_temporal d); binds H; injection H as <-; auto. Qed.
Lemma unshuffle_stored a b c e d d' : unshuffle d = Ok d' -> stored a b c e d -> stored a b c e d'.
Proof. unfold unshuffle. intros H. destruct (d_temporal d); binds H; injection H as <-; auto. Qed.
Lemma data_stored a b c e d i n x d' : getTrainingData d i n = Ok (x, d') -> stored a b c e d -> stored a b c e d'.
Proof. unfold getTrainingData. intros H. destruct (_ <=? _) in H; binds H; injection H as _ <-; auto. Qed.
Lemma outputs_stored a b c e d i n x d' : getTrainingOutputs d i n = Ok (x, d') -> stored a b c e d -> stored a b c e d'.
Proof. unfold getTrainingOutputs. intros H. destruct (_ <=? _) in H; binds H; injection H as _ <-; auto. Qed.
Lemma rev_some {A} (l : list A) x t : rev l = x :: t -> l <> [].
Proof. intros H ->. discriminate. Qed.
Lemma initialize_stored p n rec tr0 te0 trIn trLab teIn teLab d : initialize p n rec tr0 te0 trIn trLab teIn teLab = Ok d -> stored trIn trLab teIn teLab d.
Proof.
  unfold initialize. intros H. destruct (rev trIn) eqn:E1; [discriminate|]. destruct (rev trLab) eqn:E2; [discriminate|]. apply rev_some in E2. apply bind_Ok_inv in H as ([[t tr] te] & Hc & H).
  apply bind_Ok_inv in H as (e & _ & H). destruct (negb (e =? 0)); [discriminate|]. injection H as <-.
  destruct n; [injection Hc as <- <- <-|binds Hc; injection Hc as <- <- <-|]; [repeat split; auto|repeat split; auto|].
  unfold series_ctor in Hc. destruct (rec <? 1)%Z; [discriminate|]. binds Hc. injection Hc as <- <- <-. repeat split; auto.
Qed.
Lemma given_stored trIn trLab teIn teLab d : given trIn trLab teIn teLab d -> stored trIn trLab teIn teLab d.
Proof.
  induction 1 as [p n rec d _ H|p n rec d _ -> -> H|p tr3 te3 rec d H F1 F2 -> ->|p tr3 rec d H F1 -> -> ->|d o d' _ IH H|d i b x d' _ IH H|d i b y d' _ IH H|d v d' _ IH H|d v d' _ IH H|d env s r _ IH H|d fuel env w b f s r _ IH H].
  - exact (initialize_stored _ _ _ _ _ _ _ _ _ _ H).
  - exact (initialize_stored _ _ _ _ _ _ _ _ _ _ H).
  - unfold mkData4_3D in H. destruct (flatten_set_train tr3 F1) as (fi & ev & Q1 & _). destruct (flatten_set_test te3 F2) as (fi2 & ev2 & Q2 & _). rewrite Q1 in H. cbn [bind] in H. rewrite Q2 in H. cbn [bind] in H. exact (initialize_stored _ _ _ _ _ _ _ _ _ _ H).
  - unfold mkData2_3D in H. destruct (flatten_both_spec tr3 F1) as (fi & ev & Q1 & _). rewrite Q1 in H. cbn [bind] in H. exact (initialize_stored _ _ _ _ _ _ _ _ _ _ H).
  - destruct o; cbn [run_op] in H; [exact (shuffle_stored _ _ _ _ _ _ _ H IH)|exact (unshuffle_stored _ _ _ _ _ _ H IH)].
  - exact (data_stored _ _ _ _ _ _ _ _ _ H IH).
  - exact (outputs_stored _ _ _ _ _ _ _ _ _ H IH).
  - unfold setSeparator in H. destruct (negb _); [|discriminate]. injection H as <-. exact IH.
  - unfold setPrecision in H. destruct (isRegression _); [|discriminate]. injection H as <-. exact IH.
  - apply evaluate_data in H. rewrite H. exact IH.
  - apply (train_data (stored trIn trLab teIn teLab)) in H; [exact H| | | |exact IH]; [apply shuffle_stored|apply data_stored|apply outputs_stored].
Qed.
End P.

(* ===== C62 ===== *)
(* Whatever was done with a data set: its test samples are those the user gave, in their order; whatever is read at a training position
   is a sample the user gave, with its own label; and unshuffle() brings every training sample back to its place. *)
Theorem C62_samples_survive : forall (N : Num) (trIn trLab teIn teLab : list (list F)) d, given trIn trLab teIn teLab d ->
  (forall i, getTestingData d i = match nth_error teIn i with Some x => Ok x | None => UB end) /\
  (forall i y, nth_error teLab i = Some y -> match d_problem d with
     | classification => forall c, getTestingLabel d i = Ok c <-> class_of y c
     | _ => getTestingOutputs d i = Ok y end) /\
  (forall i x y, exposes d i x y -> exists j, nth_error trIn j = Some x /\ nth_error trLab j = Some y) /\
  (exists u, unshuffle d = Ok u /\ forall i x y, nth_error trIn i = Some x -> nth_error trLab i = Some y -> exposes u i x y).
Proof.
  intros N trIn trLab teIn teLab d H. apply given_stored in H as (E1 & E2 & E3 & E4 & E5 & E6 & E7). split; [|split; [|split]].
  - intros i. unfold getTestingData, lget. now rewrite E4.
  - intros i y Hy. destruct (d_problem d) eqn:Ep.
    + intros c. unfold getTestingLabel. rewrite Ep. unfold lget. rewrite E5, Hy. cbn [bind]. split.
      * intros Hc. apply findOne_spec in Hc as (k & v & -> & A & B & C). exists v. auto.
      * intros (v & A & B & C). assert (G : forall y i c v, nth_error y c = Some v -> feqb v fone = true -> (forall i u, i < c -> nth_error y i = Some u -> feqb u fone = false) -> findOne y i = Ok (i + c)).
        { clear. induction y as [|a y IH]; intros i [|c] v A B C; cbn in A; try discriminate; cbn [findOne].
          - injection A as ->. rewrite B. now rewrite Nat.add_0_r.
          - rewrite (C 0 a) by (auto; lia). rewrite (IH (S i) c v A B); [f_equal; lia|]. intros j u Hj Hu. apply (C (S j) u); [lia|exact Hu]. }
        exact (G y 0 c v A B C).
    + unfold getTestingOutputs. rewrite Ep. unfold lget. now rewrite E5, Hy.
    + unfold getTestingOutputs. rewrite Ep. unfold lget. now rewrite E5, Hy.
  - intros i x y ((d1 & Hx) & (d2 & Hy)). unfold getTrainingData, getTrainingOutputs in Hx, Hy. cbn [Nat.leb] in Hx, Hy. unfold lget in *. destruct (nth_error (s_shuffled (d_train d)) i) as [j|]; [|discriminate]. cbn [bind] in Hx, Hy.
    rewrite E1 in Hx. rewrite E2 in Hy. exists j. destruct (nth_error trIn j); [|discriminate]. destruct (nth_error trLab j); [|discriminate]. cbn in Hx, Hy. injection Hx as -> _. injection Hy as -> _. auto.
  - assert (G : forall u, s_inputs (d_train u) = trIn -> s_labels (d_train u) = trLab -> s_shuffled (d_train u) = seq 0 (List.length trLab) -> forall i x y, nth_error trIn i = Some x -> nth_error trLab i = Some y -> exposes u i x y).
    { intros u U1 U2 U3 i x y Hx Hy. assert (Hi : i < List.length trLab) by (apply nth_error_Some; congruence). unfold exposes, getTrainingData, getTrainingOutputs. cbn [Nat.leb]. unfold lget. rewrite U1, U2, U3, (nth_error_nth' _ 0), seq_nth by (rewrite ?seq_length; lia). cbn [bind Nat.add]. rewrite Hx, Hy. cbn [bind]. eauto. }
    unfold unshuffle. destruct (d_temporal d) eqn:Et.
    + eexists. split; [reflexivity|]. apply G; cbn; try assumption. now rewrite E3.
    + eexists. split; [reflexivity|]. apply G; cbn; try assumption. now rewrite E3.
    + cbn [base_unshuffle with_shuffled s_size s_shuffled]. rewrite E3. destruct trLab as [|y0 t0]; [congruence|]. unfold lset. cbn [List.length repeat bind].
      destruct (0 <? _) eqn:El; [|cbn in El; discriminate]. cbn [bind]. eexists. split; [reflexivity|]. apply G; auto.
Qed.
Print Assumptions C62_samples_survive.

(* the data of the demonstration training, trained on for two epochs, then shuffled *)
Example C62_hypotheses : exists d r d', given trIn_t trLab_t teIn_t teLab_t d /\ given trIn_t trLab_t teIn_t teLab_t (r_data r) /\ hasNan r = false /\ run_op (r_data r) (OpShuffle rev_rng) = Ok d' /\ given trIn_t trLab_t teIn_t teLab_t d'.
Proof.
  destruct demo_run as (s0 & d & r & A & B & C & D & E & G & H & I & _).
  assert (G1 : given trIn_t trLab_t teIn_t teLab_t d) by (eapply gi_four; [|exact B]; discriminate). assert (G2 : given trIn_t trLab_t teIn_t teLab_t (r_data r)) by (eapply gi_train; [exact G1|exact H]).
  assert (U : user_data 2 2 (r_data r)) by (eapply (ud_trained 2 2 10 env_t); [apply demo_user; exact B|intros k; apply rev_rng_fair|exact H]).
  destruct (ready_op 2 2 (r_data r) (OpShuffle rev_rng) (rev_rng_fair) (user_data_ready _ _ _ U)) as (d' & Ed & _). exists d, r, d'. split; [exact G1|]. split; [exact G2|]. split; [exact I|]. split; [exact Ed|]. eapply gi_op; [exact G2|exact Ed].
Qed.
