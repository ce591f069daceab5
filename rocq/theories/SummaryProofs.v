From Coq Require Import Ascii Lia.
From Verif Require Import Base Num ActModel NeuronModel LayerModel FactoryModel NetModel FactorySpec FilterSpec NeuronProofs SafeProofs SafeLayers SafeNet BuildProofs HistProofs PoolProofs FactoryProofs FactoryProps LOptProps StatModel ToolsModel TrainModel SummaryModel SummarySpec.
Local Open Scope nat_scope.
Section P.
Context {N : Num}.
Variable show : F -> string.

Lemma sum_rows (rows : list (list F)) c : Forall (fun r => List.length r = c) rows -> list_sum (map (@List.length F) rows) = List.length rows * c.
Proof. induction 1 as [|r t E _ IH]; [reflexivity|]. unfold list_sum in *. cbn [map fold_right List.length]. rewrite IH, E. lia. Qed.
Lemma rows_plain k ns : Forall (wf_plain k) ns -> Forall (fun r => List.length r = k + 1) (map n_w ns).
Proof. intros H. apply Forall_map. eapply Forall_impl; [|exact H]. intros n [W <-]. unfold wf_neuron in W. destruct W as (W & _). lia. Qed.
Lemma rows_rec k ns : Forall (wf_rneuron k) ns -> Forall (fun r => List.length r = k + 2) (map (fun r => n_w (r_n r)) ns).
Proof. intros H. apply Forall_map. eapply Forall_impl; [|exact H]. intros n [W <-]. unfold wf_neuron in W. destruct W as (W & _). lia. Qed.
Lemma rows_gru k ns : Forall (wf_gneuron k) ns -> Forall (fun r => List.length r = 3 * (k + 2)) (map gru_weights ns).
Proof.
  intros H. apply Forall_map. eapply Forall_impl; [|exact H]. intros n (_ & [W1 E1] & [W2 E2] & [W3 E3]). unfold wf_neuron in *. destruct W1 as (W1 & _), W2 as (W2 & _), W3 as (W3 & _).
  unfold gru_weights. rewrite !app_length. lia.
Qed.
Lemma filter_plain k kd f ns m : wf_filter k kd f ns m -> Forall (wf_plain (f_nin f)) ns.
Proof. destruct kd; cbn; intros H; repeat match type of H with _ /\ _ => destruct H as [_ H] end; try exact H; subst; constructor. Qed.
Lemma kept_parameters k m m' l l' : wf_layer k l m -> wf_layer k l' m' -> same_layer l l' -> layer_parameters l' = layer_parameters l.
Proof.
  intros (_ & _ & _ & W & _) (_ & _ & _ & W' & _) (_ & (L & SK) & _). unfold layer_parameters, layer_weights.
  destruct (l_body l) as [ns|ns|ns|kd f ns], (l_body l') as [ns'|ns'|ns'|kd' f' ns']; try contradiction; cbn [body_weights wf_body] in *.
  - rewrite (sum_rows _ _ (rows_plain _ _ (proj2 W))), (sum_rows _ _ (rows_plain _ _ (proj2 W'))), L. reflexivity.
  - rewrite (sum_rows _ _ (rows_rec _ _ (proj2 W))), (sum_rows _ _ (rows_rec _ _ (proj2 W'))), L. reflexivity.
  - rewrite (sum_rows _ _ (rows_gru _ _ (proj2 W))), (sum_rows _ _ (rows_gru _ _ (proj2 W'))), L. reflexivity.
  - destruct SK as (-> & Ef). rewrite (sum_rows _ _ (rows_plain _ _ (filter_plain _ _ _ _ _ (proj2 W)))), (sum_rows _ _ (rows_plain _ _ (filter_plain _ _ _ _ _ (proj2 W')))), L, Ef. reflexivity.
Qed.

(* ---- text ---- *)
Local Open Scope string_scope.
Lemma blank16 : blank "                ".
Proof. repeat constructor. Qed.
Lemma blank30 : blank "                              ".
Proof. repeat constructor. Qed.
Lemma app_ass (a b c : string) : (a ++ b) ++ c = a ++ b ++ c.
Proof. induction a; cbn; congruence. Qed.
Lemma line16 label b value text es full : full = ("                " ++ label ++ b)%string -> blank b -> lines text es -> lines (full ++ value ++ nl ++ text) ((label, value) :: es).
Proof. intros -> Hb H. rewrite !app_ass. exact (lines_cons _ _ _ _ _ _ blank16 Hb H). Qed.
Lemma opt_line a label b o od text es full : full = (a ++ label ++ b)%string -> blank a -> blank b -> (exists mk n, same_opt (build_opt mk n od) o) -> lines text es ->
  lines (full ++ opt_summary show o ++ nl ++ text) ((label, optimizer_text show od) :: es).
Proof.
  intros -> Ha Hb (mk & n & H) HL. rewrite !app_ass.
  destruct od; cbn [build_opt same_opt] in H; destruct o; try contradiction; try discriminate; cbn [opt_summary optimizer_text].
  - destruct H as (-> & _). rewrite !app_ass. 
    replace ("Dropout(" ++ show value ++ ")" ++ nl ++ nl ++ text)%string with (("Dropout(" ++ show value ++ ")") ++ newline ++ (newline ++ text))%string by (rewrite !app_ass; reflexivity).
    apply lines_cons; auto. now apply lines_empty.
  - injection H as ->. rewrite !app_ass.
    replace ("L1Regularization(" ++ show value ++ ")" ++ nl ++ nl ++ text)%string with (("L1Regularization(" ++ show value ++ ")") ++ newline ++ (newline ++ text))%string by (rewrite !app_ass; reflexivity).
    apply lines_cons; auto. now apply lines_empty.
  - injection H as ->. rewrite !app_ass.
    replace ("L2Regularization(" ++ show value ++ ")" ++ nl ++ nl ++ text)%string with (("L2Regularization(" ++ show value ++ ")") ++ newline ++ (newline ++ text))%string by (rewrite !app_ass; reflexivity).
    apply lines_cons; auto. now apply lines_empty.
  - injection H as ->. rewrite !app_ass.
    replace ("ErrorMultiplier(" ++ show factor ++ ")" ++ nl ++ nl ++ text)%string with (("ErrorMultiplier(" ++ show factor ++ ")") ++ newline ++ (newline ++ text))%string by (rewrite !app_ass; reflexivity).
    apply lines_cons; auto. now apply lines_empty.
  - apply lines_cons; auto.
Qed.
Lemma more_lines ods os : Forall2 (fun od o => exists mk n, same_opt (build_opt mk n od) o) ods os -> lines (more_opts show os) (map (fun o => ("", optimizer_text show o)) ods).
Proof.
  induction 1 as [|od o ods os H _ IH]; [constructor|]. cbn [more_opts map]. apply (opt_line "                              " "" "" o od); auto; [apply blank30|constructor].
Qed.
Lemma opts_lines ods os : Forall2 (fun od o => exists mk n, same_opt (build_opt mk n od) o) ods os -> lines (opts_summary show os) (optimizer_lines show ods).
Proof.
  intros [|od o ods' os' H HR]; [constructor|]. cbn [opts_summary optimizer_lines]. apply (opt_line "                " "Optimizers:" "   " o od); auto; [apply blank16|repeat constructor|]. now apply more_lines.
Qed.
Lemma built_opts ms n ods : forall i, Forall2 (fun od o => exists mk n, o = build_opt mk n od) ods (map (fun p => build_opt (ms (fst p)) n (snd p)) (combine (seq i (List.length ods)) ods)).
Proof. induction ods as [|o t IH]; intros i; cbn [List.length seq combine map]; constructor; [cbn [fst snd]; eauto|apply IH]. Qed.
Lemma described_opts d s l draws masks l0 : built draws masks d s l0 -> works l0 l -> Forall2 (fun od o => exists mk n, same_opt (build_opt mk n od) o) (d_opts d) (l_opts l).
Proof.
  intros B W. apply works_opts in W. assert (E : exists n, l_opts l0 = build_opts masks n (d_opts d)) by (destruct B; cbn [finish l_opts]; eauto).
  destruct E as (n & E). rewrite E in W. clear -W. unfold build_opts in W. pose proof (built_opts masks n (d_opts d) 0) as Q. revert W Q. generalize (map (fun p => build_opt (masks (fst p)) n (snd p)) (combine (seq 0 (List.length (d_opts d))) (d_opts d))). generalize (d_opts d) (l_opts l).
  intros ods os bs W Q. revert os W. induction Q as [|od b ods bs (mk & n' & ->) _ IH]; intros os W; inversion W; subst; constructor; eauto.
Qed.

Lemma first_of ns a b m : map nset ns = repeat (a, b) m -> 0 < List.length ns -> first_act ns = Ok (activation_text a).
Proof.
  intros H L. destruct ns as [|n t]; [cbn in L; lia|]. destruct (settings_at (n :: t) a b m H 0 n eq_refl) as (E & _). unfold first_act. cbn [lget nth_error bind]. unfold lget. cbn [nth_error bind]. rewrite E. destruct a; reflexivity.
Qed.
Lemma mk_rec_settings draws d nin m ns : build_neurons (fun i => rneuron_init nin 1 (nin + 2) (d_bias d) (d_act d) (draws i 0)) m = Ok ns -> map (fun r => nset (r_n r)) ns = repeat (d_act d, d_bias d) m.
Proof.
  intros H. apply build_neurons_inv in H as [L Hi]. rewrite <- L. clear L. apply nth_error_ext. intros i. rewrite nth_error_map. destruct (nth_error ns i) as [n|] eqn:E.
  - specialize (Hi i n E). unfold rneuron_init in Hi. replace (nin + 2)%nat with (S (S nin)) in Hi by lia. cbn [neuron_init bind] in Hi. injection Hi as <-. cbn.
    assert (i < List.length ns)%nat by (apply nth_error_Some; congruence). symmetry. rewrite nth_error_repeat; auto.
  - symmetry. apply nth_error_None. rewrite repeat_length. now apply nth_error_None in E.
Qed.
Lemma br1 n : "[" ++ num n ++ "]" = bracketed [n]. Proof. reflexivity. Qed.
Lemma br2 a b : dims2 [a; b] = Ok (bracketed [a; b]).
Proof. unfold dims2, bracketed. cbn [lget nth_error bind map join]. unfold lget. cbn [nth_error bind]. apply (f_equal Ok). rewrite !app_ass. reflexivity. Qed.
Lemma br3 a b c : dims3 [a; b; c] = Ok (bracketed [a; b; c]).
Proof. unfold dims3, bracketed. unfold lget. cbn [nth_error bind map join]. apply (f_equal Ok). rewrite !app_ass. reflexivity. Qed.
Ltac li b := match goal with |- lines (?f ++ _) ((?l, ?v) :: ?es) => refine (line16 l b v _ es f _ _ _); [reflexivity|repeat constructor|] end.

Lemma para nm sep ls d s body : layer_name d s = nm -> lines body ls -> paragraph sep ls d s (rule ++ " " ++ nm ++ sep ++ body).
Proof. intros <- H. exists body. split; [reflexivity|exact H]. Qed.
Lemma para_glued nm ls d s full b t : layer_name d s = nm -> full = nm ++ b -> lines (b ++ t) ls -> paragraph "" ls d s (rule ++ " " ++ full ++ t).
Proof. intros <- -> H. exists (b ++ t)%string. split; [rewrite app_ass; reflexivity|exact H]. Qed.
Lemma with_x a b (t : string) : (a ++ "x" ++ b) ++ t = a ++ "x" ++ b ++ t. Proof. now rewrite !app_ass. Qed.
Lemma layer_described d s l draws masks l0 : build_layer draws masks d (map Z.of_nat s) = Ok l0 -> layer_isValid l0 = 0%Z -> works l0 l -> Forall (fun x => 0 < x)%nat s -> sane_kernel d -> supported_pooling l0 ->
  (exists text, layer_summary show l = Ok text /\ described show d s text) /\ getShapeOfOutput l0 = expected_shape d s /\ Forall (fun x => 0 < x)%nat (getShapeOfOutput l0) /\ layer_parameters l = expected_parameters d s.
Proof.
  intros HB HV HW Hs Hk HP. apply build_layer_built in HB; auto.
  pose proof (built_wf _ _ _ _ _ Hs HB HV HP) as W0. destruct (works_wf _ _ _ _ W0 HW) as (W & SL & SS).
  destruct (built_expected _ _ _ _ _ Hs HB HV) as (ES & EP & Epos). pose proof (kept_parameters _ _ _ _ _ W0 W SL) as KP. rewrite EP in KP. destruct (same_layer_shape _ _ SL) as (KS & KN). rewrite ES in KS.
  pose proof (described_opts _ _ _ _ _ _ HB HW) as HO. apply opts_lines in HO.
  split; [|split; [exact ES|split; [exact Epos|exact KP]]].
  destruct SL as (SI & (L & SK) & _). destruct W as (WI & _ & Wm & WB & _). unfold layer_summary.
  destruct HB as [n ns0 Ht Hn Hb|n ns0 Ht Hn Hb|n ns0 Ht Hn Hb|c x ks Ht Hc Hks K0 K1|c x y ks Ht Hc Hks K0 K1 K2|c x ks f ns0 Ht Hc Hf Hks F0 K0 K1 Hb|c x y ks f ns0 Ht Hc Hf Hks F0 K0 K1 K2 Hb|c x ks f ns0 Ht Hc Hf Hks F0 K1 Hb|c x y ks f ns0 Ht Hc Hf Hks F0 K1 K2 Hb];
    cbn [finish l_body l_in] in *; destruct (l_body l) as [ns|ns|ns|kd f' ns] eqn:EB; try contradiction; cbn [settings wf_body] in *; unfold described, layer_lines, taken, lines_with; rewrite Ht.
  - assert (EN : getNumberOfNeurons l = Z.to_nat (d_neurons d)). { rewrite KN. unfold getNumberOfNeurons, layer_weights. cbn. rewrite map_length. apply build_neurons_inv in Hb as [Q _]. lia. }
    destruct WB as (EL & _). rewrite (first_of ns (d_act d) (d_bias d) n); [|rewrite SS; eapply mk_full_settings; exact Hb|lia]. cbn [bind]. eexists. split; [reflexivity|]. apply (para "FullyConnected"); [unfold layer_name; now rewrite Ht|].
    rewrite !br1, EN, WI, KP. unfold expected_shape. rewrite Ht. cbn [app].
    li "  ". li "      ". li "   ". li "   ". li " ". exact HO.
  - assert (EN : getNumberOfNeurons l = Z.to_nat (d_neurons d)). { rewrite KN. unfold getNumberOfNeurons, layer_weights. cbn. rewrite map_length. apply build_neurons_inv in Hb as [Q _]. lia. }
    destruct WB as (EL & _). rewrite (first_of (map r_n ns) (d_act d) (d_bias d) n); [|rewrite map_map, SS; eapply mk_rec_settings; exact Hb|rewrite map_length; lia]. cbn [bind]. eexists. split; [reflexivity|]. apply (para "Recurrence"); [unfold layer_name; now rewrite Ht|].
    rewrite !br1, EN, WI, KP. unfold expected_shape. rewrite Ht. cbn [app].
    li "  ". li "      ". li "   ". li "   ". li " ". exact HO.
  - assert (EN : getNumberOfNeurons l = Z.to_nat (d_neurons d)). { rewrite KN. unfold getNumberOfNeurons, layer_weights. cbn. rewrite map_length. apply build_neurons_inv in Hb as [Q _]. lia. }
    eexists. split; [reflexivity|]. apply (para "GruLayer"); [unfold layer_name; now rewrite Ht|].
    rewrite !br1, EN, WI, KP. unfold expected_shape. rewrite Ht. cbn [app].
    li "  ". li "      ". li "   ". li " ". exact HO.
  - destruct SK as (-> & Ef). assert (EX : extents s = [x] /\ with_channels s = [c; x]) by (unfold with_channels; destruct Hc as [->|[-> ->]]; auto). destruct EX as (EX & EC).
    unfold pool_summary. rewrite <- ES, Ef. cbn [set_maxIndex f_shapeIn f_ksize getShapeOfOutput finish l_body f_shapeOut]. rewrite !br2. cbn [bind]. eexists. split; [reflexivity|]. apply (para "MaxPooling1D"); [unfold layer_name, rank_text; now rewrite Ht, EX|].
    unfold kernel_text. rewrite EX, EC, Hks, Nat2Z.id. cbn [app]. li "  ". li "  ". li " ". exact HO.
  - destruct SK as (-> & Ef). unfold pool_summary. rewrite <- ES, Ef. cbn [set_maxIndex f_shapeIn f_ksize getShapeOfOutput finish l_body f_shapeOut]. rewrite !br3. cbn [bind]. eexists. split; [reflexivity|]. apply (para "MaxPooling2D"); [unfold layer_name, rank_text; now rewrite Ht, Hc|].
    unfold kernel_text, with_channels. rewrite Hc, Hks, Nat2Z.id. cbn [extents channels app]. li "  ". li "  ". li " ". exact HO.
  - destruct SK as (-> & Ef). assert (EX : extents s = [x] /\ with_channels s = [c; x]) by (unfold with_channels; destruct Hc as [->|[-> ->]]; auto). destruct EX as (EX & EC). destruct WB as (_ & WB). cbn [wf_filter] in WB. destruct WB as (_ & _ & _ & EL & _).
    unfold local_summary. rewrite (first_of ns (d_act d) (d_bias d) (f * tiles x ks)); [|rewrite SS; eapply mk_full_settings; exact Hb|lia]. rewrite KP, <- ES, Ef. cbn [set_maxIndex f_shapeIn f_ksize f_filters getShapeOfOutput finish l_body f_shapeOut]. rewrite !br2. cbn [bind]. eexists. split; [reflexivity|]. refine (para_glued "LocallyConnected1D" _ d s "LocallyConnected1D                Input shape: " "                Input shape: " _ _ eq_refl _); [unfold layer_name, rank_text; now rewrite Ht, EX|].
    unfold kernel_text. rewrite EX, EC, Hks, Hf, !Nat2Z.id. cbn [app]. li " ". li " ". li " ". li " ". li " ". li " ". exact HO.
  - destruct SK as (-> & Ef). destruct WB as (_ & WB). cbn [wf_filter] in WB. destruct WB as (_ & _ & _ & EL & _).
    unfold local_summary. rewrite (first_of ns (d_act d) (d_bias d) (f * (tiles x ks * tiles y ks))); [|rewrite SS; eapply mk_full_settings; exact Hb|lia]. rewrite KP, <- ES, Ef. cbn [set_maxIndex f_shapeIn f_ksize f_filters getShapeOfOutput finish l_body f_shapeOut]. rewrite !br3. cbn [bind]. eexists. split; [reflexivity|]. refine (para_glued "LocallyConnected2D" _ d s "LocallyConnected2D                Input shape: " "                Input shape: " _ _ eq_refl _); [unfold layer_name, rank_text; now rewrite Ht, Hc|].
    unfold kernel_text, with_channels. rewrite Hks, Hf, !Nat2Z.id. assert (EX : extents s = [x; y] /\ channels s = c) by (rewrite Hc; auto). destruct EX as (-> & ->). cbn [app]. li " ". li " ". li " ". li " ". li " ". li " ". exact HO.
  - destruct SK as (-> & Ef). assert (EX : extents s = [x] /\ with_channels s = [c; x]) by (unfold with_channels; destruct Hc as [->|[-> ->]]; auto). destruct EX as (EX & EC). destruct WB as (_ & WB). cbn [wf_filter] in WB. destruct WB as (_ & EL & _).
    assert (0 < List.length ns)%nat by (destruct (List.length ns); lia).
    unfold conv_summary. rewrite (first_of ns (d_act d) (d_bias d) f); [|rewrite SS; eapply mk_full_settings; exact Hb|assumption]. rewrite KP, <- ES, Ef. cbn [set_maxIndex f_shapeIn f_ksize f_filters getShapeOfOutput finish l_body f_shapeOut]. rewrite !br2. cbn [bind]. eexists. split; [reflexivity|]. apply (para "Convolution1D"); [unfold layer_name, rank_text; now rewrite Ht, EX|].
    unfold kernel_text. rewrite EX, EC, Hks, Hf, !Nat2Z.id. cbn [app]. li "  ". li "      ". li "  ". li "   ". li "   ". li " ". exact HO.
  - destruct SK as (-> & Ef). destruct WB as (_ & WB). cbn [wf_filter] in WB. destruct WB as (_ & EL & _). assert (0 < List.length ns)%nat by (destruct (List.length ns); lia).
    unfold conv_summary. rewrite (first_of ns (d_act d) (d_bias d) f); [|rewrite SS; eapply mk_full_settings; exact Hb|assumption]. rewrite KP, <- ES, Ef. cbn [set_maxIndex f_shapeIn f_ksize f_filters getShapeOfOutput finish l_body f_shapeOut]. rewrite !br3. cbn [bind]. eexists. split; [reflexivity|]. apply (para "Convolution2D"); [unfold layer_name, rank_text; now rewrite Ht, Hc|].
    unfold kernel_text, with_channels. rewrite Hks, Hf, !Nat2Z.id. assert (EX : extents s = [x; y] /\ channels s = c) by (rewrite Hc; auto). destruct EX as (-> & ->). cbn [app]. li "  ". li "      ". li "  ". li "   ". li "   ". li " ". exact HO.
Qed.

Lemma rest_described draws masks ds : forall i s ls ls', build_rest draws masks i ds (map Z.of_nat s) = Ok ls -> Forall (fun x => 0 < x)%nat s -> Forall sane_kernel ds -> Forall (fun l => layer_isValid l = 0%Z) ls -> Forall supported_pooling ls -> Forall2 same_layer ls ls' ->
  exists ps, layers_summary show ls' = Ok (together ps) /\ Forall2 (fun p => described show (fst p) (snd p)) (with_inputs ds s) ps /\ list_sum (map layer_parameters ls') = expected_total ds s.
Proof.
  induction ds as [|d t IH]; intros i s ls ls' H Hs Hk HV HP HF; cbn [build_rest] in H.
  - injection H as <-. inversion HF; subst. exists []. split; [reflexivity|]. split; [constructor|reflexivity].
  - apply bind_Ok_inv in H as (a & Ha & H). apply bind_Ok_inv in H as (r & Hr & H). injection H as <-. inversion HF as [|? l' ? r' Sa Sr]; subst. inversion Hk; inversion HV; inversion HP; subst.
    destruct (layer_described d s l' (draws i) (masks i) a Ha) as ((text & E1 & E2) & E3 & E4 & E5); auto; [apply Sa|].
    destruct (IH (S i) (getShapeOfOutput a) r r' Hr) as (ps & Q1 & Q2 & Q3); auto. rewrite E3 in Q2, Q3. exists (text :: ps). cbn [layers_summary with_inputs together expected_total map]. rewrite E1. cbn [bind]. rewrite Q1. cbn [bind].
    split; [reflexivity|]. split; [constructor; [exact E2|exact Q2]|]. unfold list_sum in *. cbn [fold_right]. now rewrite E5, Q3.
Qed.
End P.
