(* C63: summary() describes the network. *)
From Coq Require Import Ascii Lia.
From Verif Require Import Base Num Float32 ActModel NeuronModel LayerModel FactoryModel NetModel FactorySpec FilterSpec NeuronProofs SafeProofs SafeLayers SafeNet BuildProofs HistProofs PoolProofs FactoryProofs FactoryProps PureProps LOptProps StatModel ToolsModel WaitModel DataModel DataSpec DataProps Witness TrainModel TrainSpec TrainUser TrainUses TrainProps SummaryModel SummarySpec SummaryProofs.
Local Open Scope nat_scope.

Lemma trainOnce_opt {N : Num} rand n x d r n' : trainOnce rand n x d r = Ok n' -> nn_opt n' = nn_opt n.
Proof.
  unfold trainOnce, backpropagation. intros H. apply bind_Ok_inv in H as (n2 & H & H2). injection H2 as <-. cbn [nn_opt]. apply bind_Ok_inv in H as ((o & n1) & E & H). apply net_training_w in E as (_ & _ & _ & E). rewrite <- E. clear E.
  destruct (nn_nan n1); [now injection H as <-|]. destruct (nn_layers n1); [discriminate|]. binds H. injection H as <-. reflexivity.
Qed.
Lemma uses_opt {N : Num} k n n' : uses k n n' -> nn_opt n' = nn_opt n.
Proof.
  induction 1 as [net|net x reset o net1 net2 Hx E U IH|net rand x reset o net1 net2 Hx E U IH|net x o net1 net2 Hx E U IH|net rand x d reset net1 net2 Hx Hd HT E U IH]; [reflexivity| | | |]; rewrite IH.
  - now apply net_output_w in E.
  - now apply net_training_w in E.
  - unfold getLayerOutputs in E. destruct (nn_layers net); [discriminate|]. apply bind_Ok_inv in E as ((r & ls) & _ & E). injection E as _ <-. reflexivity.
  - now apply trainOnce_opt in E.
Qed.

Theorem C63_summary_partial : forall (N : Num) (show : F -> string) draws masks shape rest lr m net s,
  construct draws masks (Input (map Z.of_nat shape) :: rest) lr m = Ok net ->
  Forall (fun n => 0 < n) shape -> Forall sane_kernel rest -> Forall supported_pooling (nn_layers net) ->
  uses (cell_count shape) net (sn_net s) ->
  exists text paragraphs, summary show s = Ok text /\
    summarises text [("Name:", sn_path s); ("Parameters:", decimal (expected_total rest shape)); ("Epochs:", to_string (sn_epoch s)); ("Trainnig:", to_string (nn_trainings (sn_net s)))]%string
      paragraphs [("Learning rate:", show lr); ("Momentum:", show m)]%string /\
    Forall2 (fun p => described show (fst p) (snd p)) (with_inputs rest shape) paragraphs.
Proof.
  intros N show draws masks shape rest lr m net s H Hs Hk HP U.
  assert (Hsane : sane_descriptions (Input (map Z.of_nat shape) :: rest)).
  { split; [|exact Hk]. cbn [d_shape Input]. clear -Hs. induction Hs; cbn; constructor; auto; lia. }
  destruct (construct_wf _ _ _ _ _ _ H Hsane HP) as (k & mm & W & Hp). apply construct_inv in H as (d0 & r & E & _ & Hb & HV & _ & En). injection E as <- <-. cbn [d_shape Input] in Hb.
  assert (Ek : k = cell_count shape).
  { cbn [hd d_shape Input] in Hp. unfold product in Hp. apply product_inv in Hp. change 1%Z with (Z.of_nat 1) in Hp. rewrite fold_mul_nat in Hp. apply Nat2Z.inj in Hp. exact Hp. }
  subst k. destruct (uses_wf _ _ _ _ W U) as [_ SF]. pose proof (uses_opt _ _ _ U) as Eo. rewrite En in Eo. cbn [nn_opt] in Eo.
  destruct (rest_described show draws masks rest 0 shape (nn_layers net) (nn_layers (sn_net s)) Hb Hs Hk HV HP SF) as (ps & E1 & E2 & E3).
  unfold summary. rewrite E1. cbn [bind]. eexists _, ps. split; [reflexivity|]. split; [|exact E2]. unfold net_numberOfParameters. rewrite E3, Eo. unfold sgd_summary. cbn [o_lr o_m].
  exists (" Name:       " ++ sn_path s ++ nl ++ " Parameters: " ++ num (expected_total rest shape) ++ nl ++ " Epochs:     " ++ to_string (sn_epoch s) ++ nl ++ " Trainnig:   " ++ to_string (nn_trainings (sn_net s)) ++ nl)%string,
         ("                Learning rate: " ++ show lr ++ nl ++ "                Momentum:      " ++ show m ++ nl)%string.
  split; [|split].
  - unfold bar, title, nl, newline. rewrite !app_ass. reflexivity.
  - assert (B1 : blank " ") by repeat constructor.
    refine (lines_cons " " "       " "Name:" _ _ _ B1 _ _); [repeat constructor|]. refine (lines_cons " " " " "Parameters:" _ _ _ B1 _ _); [repeat constructor|].
    refine (lines_cons " " "     " "Epochs:" _ _ _ B1 _ _); [repeat constructor|]. refine (lines_cons " " "   " "Trainnig:" (to_string (nn_trainings (sn_net s))) "" _ B1 _ _); [repeat constructor|constructor].
  - refine (lines_cons _ " " "Learning rate:" _ _ _ blank16 _ _); [repeat constructor|]. refine (lines_cons _ "      " "Momentum:" (show m) "" _ blank16 _ _); [repeat constructor|constructor].
Qed.
Print Assumptions C63_summary_partial.

(* ---- looking for a line in a text ---- *)
Fixpoint strip (p s : string) : option string :=
  match p, s with
  | EmptyString, _ => Some s
  | String a p, String b s => if Ascii.eqb a b then strip p s else None
  | _, _ => None
  end.
Fixpoint skip (s : string) : string := match s with String " " t => skip t | _ => s end.
Definition starts (label value text : string) : bool :=
  match strip label text with Some t => match strip (value ++ newline) (skip t) with Some _ => true | None => false end | None => false end.
Fixpoint search (label value text : string) : bool :=
  starts label value text || match text with String _ t => search label value t | EmptyString => false end.
Lemma strip_app p s : strip p (p ++ s) = Some s.
Proof. induction p; cbn; [reflexivity|]. now rewrite Ascii.eqb_refl. Qed.
Lemma strip_ok p : forall s t, strip p s = Some t -> s = (p ++ t)%string.
Proof. induction p as [|a p IH]; intros [|b s] t H; cbn in *; try discriminate; [now injection H as <-|now injection H as <-|]. destruct (Ascii.eqb_spec a b); [|discriminate]. subst. now rewrite (IH _ _ H). Qed.
Lemma skip_blank a s : blank a -> skip (a ++ s) = skip s.
Proof. induction 1; [reflexivity|exact IHblank]. Qed.
Lemma skip_ok s : exists a, blank a /\ s = (a ++ skip s)%string.
Proof.
  induction s as [|c s IH]; [exists ""%string; split; [constructor|reflexivity]|]. destruct (Ascii.eqb_spec c " ") as [->|Hc].
  - destruct IH as (a & Ha & E). exists (String " " a). split; [now constructor|]. cbn [skip append]. now rewrite <- E.
  - exists ""%string. split; [constructor|]. cbn [append]. destruct c as [[] [] [] [] [] [] [] []]; try reflexivity. now contradict Hc.
Qed.
Lemma search_says label value text : search label value text = true -> says text label value.
Proof.
  assert (G : forall t, starts label value t = true -> exists a after, blank a /\ t = (label ++ a ++ value ++ newline ++ after)%string).
  { intros t H. unfold starts in H. destruct (strip label t) as [u|] eqn:E1; [|discriminate]. destruct (strip (value ++ newline) (skip u)) as [v|] eqn:E2; [|discriminate].
    apply strip_ok in E1, E2. destruct (skip_ok u) as (a & Ha & Eu). exists a, v. split; [exact Ha|]. rewrite E1, Eu, E2, !app_ass. reflexivity. }
  induction text as [|c t IH]; cbn [search]; intros H; apply Bool.orb_true_iff in H as [H|H]; try discriminate.
  - apply G in H as (a & after & Ha & E). exists ""%string, a, after. auto.
  - apply G in H as (a & after & Ha & E). exists ""%string, a, after. auto.
  - destruct (IH H) as (b & a & after & Ha & ->). exists (String c b), a, after. split; [exact Ha|reflexivity].
Qed.
Lemma not_says label value text : skip (value ++ newline) = (value ++ newline)%string -> (forall t, skip ((value ++ newline) ++ t) = ((value ++ newline) ++ t)%string) -> search label value text = false -> ~ says text label value.
Proof.
  intros _ HS H (b & a & after & Ha & E). revert b E. induction text as [|c t IH]; intros b E.
  - destruct b; [|discriminate]. cbn [append] in E. cbn [search] in H. apply Bool.orb_false_iff in H as [H _]. rewrite E in H. unfold starts in H. rewrite strip_app, skip_blank in H by exact Ha.
    replace (value ++ newline ++ after)%string with ((value ++ newline) ++ after)%string in H by apply app_ass. rewrite HS, strip_app in H. discriminate.
  - cbn [search] in H. apply Bool.orb_false_iff in H as [H1 H2]. destruct b as [|c' b].
    + cbn [append] in E. rewrite E in H1. unfold starts in H1. rewrite strip_app, skip_blank in H1 by exact Ha.
      replace (value ++ newline ++ after)%string with ((value ++ newline) ++ after)%string in H1 by apply app_ass. rewrite HS, strip_app in H1. discriminate.
    + cbn [append] in E. injection E as <- E. exact (IH H2 b E).
Qed.

(* The input and the output shape of a recurrent layer are exchanged *)
Theorem C63_recurrent_shapes_refuted : exists net text, @construct N32 zdraws nomasks [@Input N32 [3]%Z; @Recurrence N32 2 a_tanh []] (b32q 1 100) (b32 0) = Ok net /\
  summary (fun _ => "0.5"%string) (@mkSnn N32 net (initialStats 2) false true 0 0 0 false "AutoSave.snn") = Ok text /\
  says text "Input shape:" "[2]" /\ says text "Output shape:" "[3]" /\ ~ says text "Input shape:" "[3]" /\ ~ says text "Output shape:" "[2]".
Proof.
  by_compute (run_check (@construct N32 zdraws nomasks [@Input N32 [3]%Z; @Recurrence N32 2 a_tanh []] (b32q 1 100) (b32 0)) (fun net =>
    run_check (summary (fun _ => "0.5"%string) (@mkSnn N32 net (initialStats 2) false true 0 0 0 false "AutoSave.snn")) (fun text =>
      search "Input shape:" "[2]" text && search "Output shape:" "[3]" text && negb (search "Input shape:" "[3]" text) && negb (search "Output shape:" "[2]" text)))).
  exists w, w0. split; [exact E|]. split; [exact E0|]. repeat match goal with H : negb _ = true |- _ => apply Bool.negb_true_iff in H end.
  split; [now apply search_says|]. split; [now apply search_says|]. split; (apply not_says; [reflexivity|reflexivity|assumption]).
Qed.
Print Assumptions C63_recurrent_shapes_refuted.
(* A locally connected layer: the name is not on a line of its own *)
Theorem C63_locally_name_refuted : exists net text, @construct N32 zdraws nomasks [@Input N32 [4]%Z; @LocallyConnected N32 1 2 a_tanh []] (b32q 1 100) (b32 0) = Ok net /\
  summary (fun _ => "0.5"%string) (@mkSnn N32 net (initialStats 2) false true 0 0 0 false "AutoSave.snn") = Ok text /\
  ~ says text "LocallyConnected1D" "" /\ says text "LocallyConnected1D                Input shape:" "[1, 4]".
Proof.
  by_compute (run_check (@construct N32 zdraws nomasks [@Input N32 [4]%Z; @LocallyConnected N32 1 2 a_tanh []] (b32q 1 100) (b32 0)) (fun net =>
    run_check (summary (fun _ => "0.5"%string) (@mkSnn N32 net (initialStats 2) false true 0 0 0 false "AutoSave.snn")) (fun text =>
      negb (search "LocallyConnected1D" "" text) && search "LocallyConnected1D                Input shape:" "[1, 4]" text))).
  exists w, w0. split; [exact E|]. split; [exact E0|]. repeat match goal with H : negb _ = true |- _ => apply Bool.negb_true_iff in H end.
  split; [apply not_says; [reflexivity|reflexivity|assumption]|now apply search_says].
Qed.
Print Assumptions C63_locally_name_refuted.
Lemma mark_eqb_eq a b : mark_eqb a b = true <-> a = b.
Proof. destruct a, b; cbn; split; try discriminate; auto; [intros H; apply Nat.eqb_eq in H; now subst|intros [= ->]; apply Nat.eqb_refl]. Qed.
(* After a training of two epochs the summary says three *)
Theorem C63_epochs_refuted : exists s0 d r text, @newSnn N32 draws_t nomasks demo_t (b32q 1 100) (b32q 9 10) = Ok s0 /\ @mkData4 N32 classification trIn_t trLab_t teIn_t teLab_t nonTemporal 0 = Ok d /\
  train 10 env_t (lit_ep 2) 2 1 s0 d = Some (Ok r) /\ marks (r_log r) = [MEvaluate; MShuffle; MStep 0; MEvaluate; MShuffle; MStep 0; MEvaluate] /\
  summary (fun _ => "0.5"%string) (r_snn r) = Ok text /\ says text "Epochs:" "3" /\ ~ says text "Epochs:" "2" /\ says text "Trainnig:" "2".
Proof.
  by_compute (run_check (@newSnn N32 draws_t nomasks demo_t (b32q 1 100) (b32q 9 10)) (fun s0 => run_check (@mkData4 N32 classification trIn_t trLab_t teIn_t teLab_t nonTemporal 0) (fun d =>
    snn_check (train 10 env_t (lit_ep 2) 2 1 s0 d) (fun r => list_eqb mark_eqb (marks (r_log r)) [MEvaluate; MShuffle; MStep 0; MEvaluate; MShuffle; MStep 0; MEvaluate] &&
      run_check (summary (fun _ => "0.5"%string) (r_snn r)) (fun text => search "Epochs:" "3" text && negb (search "Epochs:" "2" text) && search "Trainnig:" "2" text))))).
  match goal with H : snn_check _ _ = true |- _ => apply snn_check_ex in H as (r & Er & H) end. unpack_all.
  match goal with H : summary _ _ = Ok ?t |- _ => exists w, w0, r, t end. split; [exact E|]. split; [exact E0|]. split; [exact Er|]. repeat match goal with H : negb _ = true |- _ => apply Bool.negb_true_iff in H end.
  split; [apply (list_eqb_eq _ mark_eqb_eq); assumption|]. split; [assumption|].
  split; [now apply search_says|]. split; [apply not_says; [reflexivity|reflexivity|assumption]|now apply search_says].
Qed.
Print Assumptions C63_epochs_refuted.

Example C63_hypotheses : exists net net' text, @construct N32 zdraws nomasks demo (b32q 1 100) (b32q 9 10) = Ok net /\ demo = @Input N32 (map Z.of_nat [2; 4; 5]) :: tl demo /\ Forall (@sane_kernel N32) (tl demo) /\
  Forall (@supported_pooling N32) (nn_layers net) /\ uses (cell_count [2; 4; 5]) net net' /\ net_numberOfParameters net' = 85 /\
  summary (fun _ => "0.5"%string) (@mkSnn N32 net' (initialStats 2) false true 0 0 0 false "AutoSave.snn") = Ok text /\
  says text "Parameters:" "85" /\ says text "Kernel size:" "2x2" /\ says text "Input shape:" "[2, 4, 5]" /\ says text "Optimizers:" "Softmax".
Proof.
  by_compute (run_check (@construct N32 zdraws nomasks demo (b32q 1 100) (b32q 9 10)) (fun net => forallb pool_okb (nn_layers net) && run_check (@net_output N32 net (repeat (b32 1) 40) true) (fun p => (net_numberOfParameters (snd p) =? 85) &&
    run_check (summary (fun _ => "0.5"%string) (@mkSnn N32 (snd p) (initialStats 2) false true 0 0 0 false "AutoSave.snn")) (fun text =>
      search "Parameters:" "85" text && search "Kernel size:" "2x2" text && search "Input shape:" "[2, 4, 5]" text && search "Optimizers:" "Softmax" text)))).
  destruct w0 as [o net']. cbn [snd] in *. exists w, net'. match goal with H : summary _ _ = Ok ?t |- _ => exists t end.
  split; [exact E|]. split; [reflexivity|]. split; [repeat constructor; cbn; lia|]. split; [now apply pool_okb_ok|].
  split; [eapply uses_predict; [|eassumption|apply uses_none]; reflexivity|]. split; [now apply Nat.eqb_eq|]. split; [assumption|]. repeat split; now apply search_says.
Qed.
