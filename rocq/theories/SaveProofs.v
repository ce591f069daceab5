(* Reading back what was written: the reader succeeds exactly when every number is finite, and gives the value back. *)
From Verif Require Import Base Num ActModel NeuronModel LayerModel NetModel StatModel TrainModel SaveModel SaveSpec.

Section P.
Context {N : Num}.
Definition mem (seen : bool) (o : SGD) : option SGD := if seen then Some o else None.
Definition rd {A} (o : SGD) (nums : list F) (w : W) (r : R A) (a : A) : Prop :=
  forall seen rest, r (fst (w seen) ++ rest, mem seen o) = if forallb ffinite nums then Ok (a, (rest, mem (snd (w seen)) o)) else Throw "input stream error".

Lemma rd_bind {A B} o n1 n2 w w' (r : R A) (k : A -> R B) a b : rd o n1 w r a -> rd o n2 w' (k a) b -> rd o (n1 ++ n2) (wseq w w') (rbind r k) b.
Proof.
  intros H1 H2 seen rest. unfold wseq. specialize (H1 seen). destruct (w seen) as [x s1]. specialize (H2 s1). destruct (w' s1) as [y s2]. cbn in *.
  unfold rbind. rewrite <- app_assoc, H1, forallb_app. destruct (forallb ffinite n1); [apply H2|reflexivity].
Qed.
Lemma rd_last {A B} o n w (r : R A) (k : A -> R B) a b : rd o n w r a -> k a = rret b -> rd o n w (rbind r k) b.
Proof. intros H E seen rest. unfold rbind. rewrite H. destruct (forallb ffinite n); [now rewrite E|reflexivity]. Qed.
Lemma rd_ret {A} o (a : A) : rd o [] wnil (rret a) a.
Proof. intros seen rest. reflexivity. Qed.
Lemma rd_nums {A} o n n' w (r : R A) a : rd o n w r a -> n = n' -> rd o n' w r a.
Proof. now intros H <-. Qed.
Lemma rd_Z o z : rd o [] (wZ z) rZ z. Proof. intros seen rest. reflexivity. Qed.
Lemma rd_B o b : rd o [] (wB b) rB b. Proof. intros seen rest. reflexivity. Qed.
Lemma rd_S o s : rd o [] (w1 (TS s)) rS s. Proof. intros seen rest. reflexivity. Qed.
Lemma rd_N o n : rd o [] (wN n) rN n.
Proof. intros seen rest. cbn. unfold rN, rbind, rret. cbn. now rewrite Nat2Z.id. Qed.
Lemma rd_F o x : rd o [x] (wF x) rF x.
Proof. intros seen rest. cbn. unfold rF, rbind, rret. cbn. destruct (ffinite x); reflexivity. Qed.
Lemma rd_times {A} o (w : A -> W) (r : R A) (f : A -> A) num l : (forall a, In a l -> rd o (num a) (w a) r (f a)) ->
  rd o (flat_map num l) (fold_right (fun a r => wseq (w a) r) wnil l) (rtimes (List.length l) r) (map f l).
Proof.
  induction l as [|a l IH]; intros H; [apply rd_ret|]. cbn. eapply rd_bind; [apply H; now left|]. eapply rd_last; [apply IH; intros b Hb; apply H; now right|reflexivity].
Qed.
Lemma rd_map {A} o (w : A -> W) (r : R A) (f : A -> A) num l : (forall a, rd o (num a) (w a) r (f a)) -> rd o (flat_map num l) (wlist w l) (rlist r) (map f l).
Proof. intros H. unfold wlist, rlist. eapply (rd_bind o []); [apply rd_N|]. now apply rd_times. Qed.
Lemma rd_list {A} o (w : A -> W) (r : R A) num l : (forall a, rd o (num a) (w a) r a) -> rd o (flat_map num l) (wlist w l) (rlist r) l.
Proof. intros H. pose proof (rd_map o w r id num l H) as X. now rewrite map_id in X. Qed.
Lemma flat_map_nil {A B} (l : list A) : flat_map (fun _ => @nil B) l = []. Proof. induction l; auto. Qed.
Lemma rd_plain {A} o (w : A -> W) (r : R A) l : (forall a, rd o [] (w a) r a) -> rd o [] (wlist w l) (rlist r) l.
Proof. intros H. eapply rd_nums; [apply (rd_list o w r (fun _ => []) l H)|apply flat_map_nil]. Qed.
Lemma flat_one {A} (l : list A) : flat_map (fun x => [x]) l = l. Proof. induction l; cbn; congruence. Qed.
Lemma rd_Fs o l : rd o l (wlist wF l) (rlist rF) l.
Proof. eapply rd_nums; [apply (rd_list o wF rF (fun x => [x])); intro; apply rd_F|apply flat_one]. Qed.
Lemma rd_Fss o l : rd o (List.concat l) (wlist (wlist wF) l) (rlist (rlist rF)) l.
Proof. eapply rd_nums; [apply (rd_list o _ _ (fun x => x)); intro; apply rd_Fs|]. rewrite flat_map_concat_map, map_id. reflexivity. Qed.
Section O.
Variable o : SGD.
Hypothesis Ho : all_finite (sgd_numbers o).
Lemma rd_Opt : rd o [] (wOpt o) rOpt o.
Proof.
  inversion Ho as [|? ? H1 H']; subst. inversion H' as [|? ? H2 _]; subst.
  intros [|] rest; unfold wOpt, rOpt, rbind, rret; cbn; [reflexivity|]. rewrite H1. cbn. rewrite H2. destruct o; reflexivity.
Qed.
Ltac rd1 := lazymatch goal with
  | |- rd _ _ (wF _) rF _ => apply rd_F
  | |- rd _ _ (wN _) rN _ => apply rd_N
  | |- rd _ _ (wZ _) rZ _ => apply rd_Z
  | |- rd _ _ (wB _) rB _ => apply rd_B
  | |- rd _ _ (w1 (TS _)) rS _ => apply rd_S
  | |- rd _ _ (wlist wF _) (rlist rF) _ => apply rd_Fs
  | |- rd _ _ (wlist wN _) _ _ => apply rd_plain; intro; apply rd_N
  | |- rd _ _ (wlist wZ _) _ _ => apply rd_plain; intro; apply rd_Z
  | |- rd _ _ (wlist wB _) _ _ => apply rd_plain; intro; apply rd_B
  | |- rd _ _ (wlist (wlist wZ) _) _ _ => apply rd_plain; intro; apply rd_plain; intro; apply rd_Z
  | |- rd _ _ (wOpt _) rOpt _ => apply rd_Opt
  end.
Ltac rds := repeat (eapply rd_bind; [first [rd1|solve [eauto]]|]); try (eapply rd_last; [first [rd1|solve [eauto]]|reflexivity]).
Ltac same_nums := cbn [app]; rewrite ?app_nil_r, <- ?app_assoc; reflexivity.

Lemma rd_Circ c : rd o (circ_numbers c) (wCirc c) rCirc c.
Proof. destruct c as [q p g]. unfold wCirc, rCirc. eapply rd_nums; [eapply rd_bind; [apply rd_Fss|]; rds|]. same_nums. Qed.
Lemma act_of_code a : act_of (act_code a) = Some a. Proof. now destruct a. Qed.
Hint Resolve rd_Circ : core.
Lemma rd_Neuron n : rd o (neuron_numbers n) (wNeuron o n) rNeuron n.
Proof.
  destruct n as [i b w bias p l e s a]. unfold wNeuron, rNeuron. cbn [n_in n_batch n_w n_bias n_prev n_last n_err n_sum n_act].
  eapply rd_nums; [rds; eapply rd_last; [rd1|]; now rewrite act_of_code|]. same_nums.
Qed.
Hint Resolve rd_Neuron : core.
Lemma rd_RNeuron n : rd o (rneuron_numbers n) (wRNeuron o n) rRNeuron n.
Proof. destruct n as [n a b c d]. unfold wRNeuron, rRNeuron. cbn [r_n r_lastOut r_prevOut r_recErr r_prevSum]. eapply rd_nums; [rds|]. same_nums. Qed.
Hint Resolve rd_RNeuron : core.
Lemma rd_GNeuron n : rd o (gneuron_numbers n) (wGNeuron o n) rGNeuron (bare_gru n).
Proof. destruct n as [i e a b c d x y z]. unfold wGNeuron, rGNeuron. cbn [g_in g_prevOut g_recErr g_updOut g_outOut g_reset g_update g_output]. eapply rd_nums; [rds|]. same_nums. Qed.
Lemma rd_LOpt l p : rd o (lopt_numbers p) (wLOpt l p) (rLOpt l) p.
Proof.
  unfold rLOpt. destruct p as [v r m|v|v|v|]; cbn [wLOpt]; (eapply rd_nums; [eapply rd_bind; [rd1|];
    first [eapply rd_bind; [rd1|]; rewrite Nat.eqb_refl; cbn [negb]; rds | eapply rd_last; [rd1|]; rewrite Nat.eqb_refl; reflexivity]|same_nums]).
Qed.
Lemma rd_Filter k f : rd o [] (wFilter k f) (rFilter k) (bare_filter k f).
Proof.
  destruct f as [a b c d e f g h i j m]. unfold wFilter, rFilter. cbn [f_filters f_kernels f_kpf f_npf f_ksize f_nin f_shapeIn f_shapeOut f_index f_outputs f_maxIndex].
  destruct k; cbn [is_pool bare_filter f_filters f_kernels f_kpf f_npf f_ksize f_nin f_shapeIn f_shapeOut f_index]; (eapply rd_nums; [rds; try apply rd_ret|same_nums]).
Qed.
Lemma rd_Layer l a : rd o (layer_numbers a) (wLayer o l a) (rLayer l) (bare_layer a).
Proof.
  destruct a as [i b os].
  assert (HO : rd o (flat_map lopt_numbers os) (wlist (wLOpt l) os) (rlist (rLOpt l)) os) by (apply rd_list; intros; apply rd_LOpt).
  unfold wLayer, bare_layer, layer_numbers. cbn [l_in l_body l_opts]. destruct b as [ns|ns|ns|k f ns]; cbn [body_numbers bare_body] in *; unfold rLayer;
    (eapply (rd_bind o []); [rd1|]); (eapply (rd_bind o []); [rd1|]).
  - eapply rd_bind; [apply rd_list; auto|]. eapply rd_last; [exact HO|reflexivity].
  - eapply rd_bind; [apply rd_list; auto|]. eapply rd_last; [exact HO|reflexivity].
  - eapply rd_bind; [apply rd_map; intros; apply rd_GNeuron|]. eapply rd_last; [exact HO|reflexivity].
  - assert (E : rd o (flat_map neuron_numbers ns ++ flat_map lopt_numbers os) (wseq (wlist (wNeuron o) ns) (wseq (wlist (wLOpt l) os) (wFilter k f)))
      (rbind (rlist rNeuron) (fun ns => rbind (rlist (rLOpt l)) (fun os => rbind (rFilter k) (fun f => rret (mkLayer i (BFilter k f ns) os))))) (mkLayer i (BFilter k (bare_filter k f) ns) os)).
    { eapply rd_bind; [apply rd_list; auto|]. eapply rd_nums; [eapply rd_bind; [exact HO|]; eapply rd_last; [apply rd_Filter|reflexivity]|]. apply app_nil_r. }
    destruct k; exact E.
Qed.
Lemma rd_Layers ls : forall l, rd o (flat_map layer_numbers ls) (wLayers o l ls) (rLayers l (List.length ls)) (map bare_layer ls).
Proof.
  induction ls as [|a ls IH]; intros l; [apply rd_ret|]. cbn. eapply rd_bind; [apply rd_Layer|]. eapply rd_last; [apply IH|reflexivity].
Qed.
Lemma rd_Cluster c : rd o [c_tp c; c_tn c; c_fp c; c_fn c] (wCluster c) rCluster (bare_cluster c).
Proof. unfold wCluster, rCluster. eapply rd_nums; [rds|]. same_nums. Qed.
Lemma rd_Stats s : rd o (stats_numbers s) (wStats s) rStats (bare_stats s).
Proof.
  unfold wStats, rStats, stats_numbers.
  eapply rd_nums; [eapply rd_bind; [apply (rd_map o _ _ bare_cluster (fun c => [c_tp c; c_tn c; c_fp c; c_fn c])); intros; apply rd_Cluster|]; rds|]. same_nums.
Qed.
End O.
Lemma forallb_finite l : all_finite l <-> forallb ffinite l = true.
Proof. unfold all_finite. rewrite Forall_forall, forallb_forall. reflexivity. Qed.
Theorem load_exact s : all_finite (sgd_numbers (nn_opt (sn_net s))) ->
  loadFrom (file_of s) = if forallb ffinite (snn_numbers s) then Ok (no_nan (bare s)) else Throw "input stream error".
Proof.
  intros Ho. set (o := nn_opt (sn_net s)) in *.
  assert (E : rd o (stats_numbers (sn_stats s) ++ flat_map layer_numbers (nn_layers (sn_net s))) (wSnn s) rSnn (no_nan (bare s))).
  { unfold wSnn, rSnn. eapply rd_bind; [now apply rd_Stats|]. eapply rd_nums; [eapply rd_bind; [apply rd_Z|]; eapply rd_bind; [apply rd_N|]; eapply rd_bind; [now apply rd_Layers|]; fold o; eapply rd_bind; [now apply rd_Opt|];
      eapply rd_bind; [apply rd_S|]; eapply rd_bind; [apply rd_B|]; eapply rd_bind; [apply rd_B|]; eapply rd_bind; [apply rd_N|]; eapply rd_bind; [apply rd_B|]; eapply rd_bind; [apply rd_Z|]; eapply rd_last; [apply rd_N|reflexivity]|].
    cbn [app]. rewrite ?app_nil_r. reflexivity. }
  unfold loadFrom, file_of. specialize (E false []). rewrite app_nil_r in E. cbn [mem] in E. rewrite E. clear E.
  unfold snn_numbers, net_numbers. fold o. rewrite app_assoc, (forallb_app _ _ (sgd_numbers o)), (proj1 (forallb_finite _) Ho), andb_true_r.
  destruct (forallb ffinite _); reflexivity.
Qed.
Corollary load_file s : all_finite (snn_numbers s) -> loadFrom (file_of s) = Ok (no_nan (bare s)).
Proof.
  intros H. rewrite load_exact; [now rewrite (proj1 (forallb_finite _) H)|]. unfold snn_numbers, net_numbers, all_finite in *. rewrite !Forall_app in H. tauto.
Qed.
End P.
