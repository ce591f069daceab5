From Coq Require Import Lia.
From Verif Require Import Base Num ActModel NeuronModel LayerModel NetModel FactoryModel LookSpec LookProofs NeutralSpec.
Local Open Scope outcome_scope.

Section P.
Context {N : Num}.
(* for each layer, the place in its list of options and the options put there *)
Definition extras := nat -> nat * list LOpt.
Definition add_to (m : nat * list LOpt) (l : Layer) : Layer := mkLayer (l_in l) (l_body l) (firstn (fst m) (l_opts l) ++ snd m ++ skipn (fst m) (l_opts l)).
Fixpoint add_from (ms : extras) (i : nat) (ls : list Layer) : list Layer := match ls with [] => [] | l :: t => add_to (ms i) l :: add_from ms (S i) t end.
Definition add_options (ms : extras) (n : Net) : Net := mkNet (add_from ms 0 (nn_layers n)) (nn_opt n) (nn_nan n) (nn_trainings n).
Definition where_ (ms : extras) : nat -> nat * nat := fun i => (fst (ms i), List.length (snd (ms i))).
Definition one_opt (o : LOpt) : Prop := match o with OMult f => f = fone | ODropout _ r mask => r = fone /\ Forall (eq true) mask | _ => False end.
Definition zero_opt (o : LOpt) : Prop := match o with OL1 v | OL2 v => v = fzero | _ => False end.
Definition idle (o : LOpt) : Prop :=
  (forall ws e, opt_back ws o e = e) /\ (forall out, opt_testing o out = Ok out) /\
  (forall rand reset out, (forall i, rand i = true) -> opt_training rand reset o out = Ok (out, o)).
Lemma mulMask_true (one : forall x : F, fmul x fone = x) (mask : list bool) : Forall (eq true) mask -> forall v, mulMask v mask = v.
Proof.
  unfold mulMask. induction 1 as [|b t <- _ IH]; intros v; [destruct v; reflexivity|]. destruct v as [|x v]; [reflexivity|]. cbn. f_equal; [apply one|apply IH].
Qed.
Lemma one_idle (one : forall x : F, fmul x fone = x) o : one_opt o -> idle o.
Proof.
  destruct o as [v r mask|v|v|f|]; cbn; intros H; try contradiction.
  - destruct H as [-> H]. split; [intros ws e; now apply mulMask_true|]. split; [intros out; cbn; f_equal; rewrite <- (map_id out) at 2; apply map_ext; exact one|].
    intros rand reset out Hr. cbn. assert (E : (if reset then map rand (seq 0 (List.length mask)) else mask) = mask).
    { destruct reset; [|reflexivity]. clear - H Hr. generalize 0 as k. induction H as [|b t <- _ IH]; intros k; [reflexivity|]. cbn. now rewrite Hr, IH. }
    rewrite E, mulMask_true; auto.
  - subst f. split; [intros ws e; cbn; rewrite <- (map_id e) at 2; apply map_ext; exact one|]. split; reflexivity.
Qed.
Lemma zero_idle (zero : forall x y : F, fadd x (fmul y fzero) = x) o : zero_opt o -> idle o.
Proof.
  destruct o as [v r mask|v|v|f|]; cbn; intros H; try contradiction; subst v;
    (split; [intros ws e; cbn; rewrite <- (map_id e) at 2; apply map_ext; intros; apply zero|split; reflexivity]).
Qed.

(* the lists of options *)
Lemma opts_back_app ws a b e : opts_back ws (a ++ b) e = opts_back ws b (opts_back ws a e).
Proof. apply fold_left_app. Qed.
Lemma opts_back_idle ws ns : Forall idle ns -> forall e, opts_back ws ns e = e.
Proof. induction 1 as [|o t H _ IH]; intros e; [reflexivity|]. cbn. rewrite (proj1 H). apply IH. Qed.
Lemma opts_testing_app a : forall b out, opts_testing (a ++ b) out = bind (opts_testing a out) (opts_testing b).
Proof. unfold opts_testing. induction a as [|o t IH]; intros b out; [reflexivity|]. cbn. destruct (opt_testing o out); cbn; [apply IH|reflexivity..]. Qed.
Lemma opts_testing_idle ns : Forall idle ns -> forall out, opts_testing ns out = Ok out.
Proof. unfold opts_testing. induction 1 as [|o t H _ IH]; intros out; [reflexivity|]. cbn. destruct H as (_ & H & _). rewrite H. apply IH. Qed.
Lemma opts_training_app rand r a : forall i b out,
  opts_training rand r i (a ++ b) out = let* (o1, a') := opts_training rand r i a out in let* (o2, b') := opts_training rand r (i + List.length a) b o1 in Ok (o2, a' ++ b').
Proof.
  induction a as [|o t IH]; intros i b out; cbn.
  - rewrite Nat.add_0_r. now destruct (opts_training rand r i b out) as [[]| |].
  - destruct (opt_training (rand i) r o out) as [[o1 o']| |]; cbn; [|reflexivity..]. rewrite IH. destruct (opts_training rand r (S i) t o1) as [[o2 t']| |]; cbn; [|reflexivity..].
    rewrite Nat.add_succ_r. destruct (opts_training _ _ _ b o2) as [[]| |]; reflexivity.
Qed.
Lemma opt_training_ext (r1 r2 : nat -> bool) reset o out : (forall i, r1 i = r2 i) -> opt_training r1 reset o out = opt_training r2 reset o out.
Proof. intros H. destruct o; try reflexivity. cbn. now rewrite (map_ext _ _ H). Qed.
Lemma opts_training_shift (r1 r2 : nat -> nat -> bool) reset k os : forall i out, (forall o x, i <= o < i + List.length os -> r1 (o + k) x = r2 o x) ->
  opts_training r1 reset (i + k) os out = opts_training r2 reset i os out.
Proof.
  induction os as [|o t IH]; intros i out H; [reflexivity|]. cbn. rewrite (opt_training_ext (r1 (i + k)) (r2 i)) by (intros; apply H; cbn; lia).
  destruct (opt_training (r2 i) reset o out) as [[o1 o']| |]; cbn; [|reflexivity..]. rewrite <- (IH (S i)); [reflexivity|]. intros; apply H; cbn; lia.
Qed.
Lemma opts_training_idle rand reset ns : Forall idle ns -> forall i out, (forall o x, i <= o < i + List.length ns -> rand o x = true) -> opts_training rand reset i ns out = Ok (out, ns).
Proof.
  induction 1 as [|o t H _ IH]; intros i out Hr; [reflexivity|]. cbn. destruct H as (_ & _ & H). rewrite H by (intros; apply Hr; cbn; lia). cbn. rewrite IH; [reflexivity|]. intros; apply Hr; cbn; lia.
Qed.
Lemma opts_training_len rand reset os : forall i out out' os', opts_training rand reset i os out = Ok (out', os') -> List.length os' = List.length os.
Proof.
  induction os as [|o t IH]; intros i out out' os' H; cbn in H; [now injection H as <- <-|].
  apply bind_Ok_inv in H as ((o1 & o') & _ & H). apply bind_Ok_inv in H as ((o2 & t') & H1 & H). injection H as <- <-. cbn. now rewrite (IH _ _ _ _ H1).
Qed.

(* one layer *)
Section L.
Variable m : nat * list LOpt.
Hypothesis Hm : Forall idle (snd m).
Definition fits (l : Layer) : Prop := fst m <= List.length (l_opts l).
Definition added {A} (p p' : outcome (A * Layer)) : Prop :=
  match p, p' with Ok (a, l), Ok (a', l') => a' = a /\ l' = add_to m l /\ fits l | Throw e, Throw e' => e' = e | UB, UB => True | _, _ => False end.
Lemma back_added ws os e : opts_back ws (firstn (fst m) os ++ snd m ++ skipn (fst m) os) e = opts_back ws os e.
Proof. rewrite !opts_back_app, (opts_back_idle ws _ Hm), <- opts_back_app, firstn_skipn. reflexivity. Qed.
Lemma layer_output_added l x t : fits l -> added (layer_output l x t) (layer_output (add_to m l) x t).
Proof.
  intros Hf. unfold layer_output, add_to. cbn [l_in l_body l_opts]. destruct (body_output (l_body l) x t) as [[out b]| |]; cbn; auto.
  assert (E : opts_testing (firstn (fst m) (l_opts l) ++ snd m ++ skipn (fst m) (l_opts l)) out = opts_testing (l_opts l) out).
  { rewrite <- (firstn_skipn (fst m) (l_opts l)) at 3. rewrite !opts_testing_app. destruct (opts_testing (firstn _ _) out) as [o1| |]; cbn; auto. now rewrite opts_testing_app, (opts_testing_idle _ Hm). }
  rewrite E. destruct (opts_testing (l_opts l) out); cbn; auto.
Qed.
Lemma layer_training_added (r r' : nat -> nat -> bool) l x t : fits l ->
  (forall o i, (o < fst m -> r' o i = r o i) /\ (fst m <= o -> r' (o + List.length (snd m)) i = r o i) /\ (fst m <= o < fst m + List.length (snd m) -> r' o i = true)) ->
  added (layer_outputForTraining r l x t) (layer_outputForTraining r' (add_to m l) x t).
Proof.
  intros Hf Hr. unfold layer_outputForTraining, add_to. cbn [l_in l_body l_opts]. destruct (body_output (l_body l) x t) as [[out b]| |]; cbn [bind added]; auto.
  set (k := fst m) in *. set (os := l_opts l) in *. assert (L : List.length (firstn k os) = k) by (apply firstn_length_le; exact Hf).
  rewrite opts_training_app. rewrite <- (firstn_skipn k os) at 1. rewrite (opts_training_app r).
  assert (E1 : opts_training r' t 0 (firstn k os) out = opts_training r t 0 (firstn k os) out).
  { pose proof (opts_training_shift r' r t 0 (firstn k os) 0 out) as X. rewrite Nat.add_0_r in X. apply X. intros o i Ho. rewrite Nat.add_0_r. apply Hr. lia. }
  rewrite E1. destruct (opts_training r t 0 (firstn k os) out) as [[o1 a']| |] eqn:Ea; cbn [bind added]; auto. apply opts_training_len in Ea.
  rewrite opts_training_app, (opts_training_idle _ _ _ Hm) by (intros; apply Hr; lia). cbn [bind].
  rewrite ?L. cbn [Nat.add]. rewrite (opts_training_shift r' r t (List.length (snd m)) (skipn k os) k) by (intros; apply Hr; lia).
  destruct (opts_training r t k (skipn k os) o1) as [[o2 b']| |] eqn:Eb; cbn [bind added]; auto.
  split; [reflexivity|]. unfold fits. cbn [l_opts l_in l_body]. rewrite L in Ea. split; [|rewrite app_length; lia].
  unfold add_to. cbn [l_in l_body l_opts]. fold k. f_equal. rewrite <- Ea. rewrite firstn_app, skipn_app, Nat.sub_diag, firstn_O, skipn_O, firstn_all, skipn_all, app_nil_r. reflexivity.
Qed.
Lemma layer_back_added o l e : fits l -> added (layer_backOutput o l e) (layer_backOutput o (add_to m l) e).
Proof.
  intros Hf. unfold layer_backOutput, add_to. cbn [l_in l_body l_opts]. unfold layer_weights. cbn [l_body]. rewrite back_added. destruct (body_back o _ _ _) as [[e' b]| |]; cbn; auto.
Qed.
Lemma layer_train_added o l e : fits l -> match layer_train o l e, layer_train o (add_to m l) e with Ok l1, Ok l2 => l2 = add_to m l1 /\ fits l1 | Throw a, Throw b => b = a | UB, UB => True | _, _ => False end.
Proof.
  intros Hf. unfold layer_train, add_to. cbn [l_in l_body l_opts]. unfold layer_weights. cbn [l_body]. rewrite back_added. destruct (body_train o _ _) as [b| |]; cbn; auto.
Qed.
End L.

(* the network *)
Section W.
Variable ms : extras.
Hypothesis Hms : forall i, Forall idle (snd (ms i)).
Definition fit_from (i : nat) (ls : list Layer) : Prop := forall k l, nth_error ls k = Some l -> fits (ms (i + k)) l.
Lemma fit_cons i l t : fit_from i (l :: t) <-> fits (ms i) l /\ fit_from (S i) t.
Proof.
  split.
  - intros H. split; [specialize (H 0 l eq_refl); now rewrite Nat.add_0_r in H|]. intros k a E. specialize (H (S k) a E). now rewrite Nat.add_succ_r in H.
  - intros [H1 H2] [|k] a E; cbn in E; [injection E as <-; now rewrite Nat.add_0_r|]. rewrite Nat.add_succ_r. now apply (H2 k).
Qed.
Definition added_from {A} (i : nat) (p p' : outcome (A * list Layer)) : Prop :=
  match p, p' with Ok (a, l), Ok (a', l') => a' = a /\ l' = add_from ms i l /\ fit_from i l | Throw e, Throw e' => e' = e | UB, UB => True | _, _ => False end.
Lemma chain_added f g ls : (forall i l x, fits (ms i) l -> added (ms i) (f i l x) (g i (add_to (ms i) l) x)) ->
  forall i x, fit_from i ls -> added_from i (chain f i ls x) (chain g i (add_from ms i ls) x).
Proof.
  intros H. induction ls as [|l t IH]; intros i x Hf; [cbn; auto|]. apply fit_cons in Hf as [Hf Ht]. cbn. specialize (H i l x Hf).
  destruct (f i l x) as [[o l1]| |], (g i (add_to (ms i) l) x) as [[o' l2]| |]; cbn in H |- *; auto; try contradiction. destruct H as (-> & -> & Hf1).
  specialize (IH (S i) o Ht). destruct (chain f (S i) t o) as [[o1 t1]| |], (chain g (S i) _ o) as [[o2 t2]| |]; cbn in IH |- *; auto; try contradiction.
  destruct IH as (-> & -> & Ht1). split; [reflexivity|]. split; [reflexivity|]. now apply fit_cons.
Qed.
Lemma chain_back_added o ls : forall i e, fit_from i ls -> added_from i (chain_back o ls e) (chain_back o (add_from ms i ls) e).
Proof.
  induction ls as [|l t IH]; intros i e Hf; [cbn; auto|]. apply fit_cons in Hf as [Hf Ht]. cbn. specialize (IH (S i) e Ht).
  destruct (chain_back o t e) as [[e1 t1]| |], (chain_back o _ e) as [[e2 t2]| |]; cbn in IH |- *; auto; try contradiction. destruct IH as (-> & -> & Ht1).
  pose proof (layer_back_added (ms i) (Hms i) o l e1 Hf) as X. destruct (layer_backOutput o l e1) as [[e3 l1]| |], (layer_backOutput o _ e1) as [[e4 l2]| |]; cbn in X |- *; auto; try contradiction.
  destruct X as (-> & -> & Hf1). split; [reflexivity|]. split; [reflexivity|]. now apply fit_cons.
Qed.
Lemma chain_outputs_added ls : forall i x, fit_from i ls -> added_from i (chain_outputs ls x) (chain_outputs (add_from ms i ls) x).
Proof.
  induction ls as [|l t IH]; intros i x Hf; [cbn; auto|]. apply fit_cons in Hf as [Hf Ht]. cbn.
  pose proof (layer_output_added (ms i) (Hms i) l x true Hf) as X. destruct (layer_output l x true) as [[o l1]| |], (layer_output (add_to (ms i) l) x true) as [[o' l2]| |]; cbn in X |- *; auto; try contradiction.
  destruct X as (-> & -> & Hf1). specialize (IH (S i) o Ht). destruct (chain_outputs t o) as [[r t1]| |], (chain_outputs _ o) as [[r' t2]| |]; cbn in IH |- *; auto; try contradiction.
  destruct IH as (-> & -> & Ht1). split; [reflexivity|]. split; [reflexivity|]. now apply fit_cons.
Qed.
Definition fit (n : Net) : Prop := fit_from 0 (nn_layers n).
Definition net_added {A} (p p' : outcome (A * Net)) : Prop :=
  match p, p' with Ok (a, n), Ok (a', n') => a' = a /\ n' = add_options ms n /\ fit n | Throw e, Throw e' => e' = e | UB, UB => True | _, _ => False end.
Definition net_added1 (p p' : outcome Net) : Prop :=
  match p, p' with Ok n, Ok n' => n' = add_options ms n /\ fit n | Throw e, Throw e' => e' = e | UB, UB => True | _, _ => False end.
Lemma net_output_added n x t : fit n -> net_added (net_output n x t) (net_output (add_options ms n) x t).
Proof.
  intros Hf. unfold net_output, add_options. cbn [nn_layers nn_opt nn_nan nn_trainings]. destruct (nn_layers n) as [|a ls] eqn:E; [cbn; auto|].
  assert (Hf' : fit_from 0 (a :: ls)) by (unfold fit in Hf; now rewrite E in Hf).
  pose proof (chain_added (fun _ l v => layer_output l v t) (fun _ l v => layer_output l v t) (a :: ls) (fun i l y H => layer_output_added (ms i) (Hms i) l y t H) 0 x Hf') as X.
  cbn [add_from] in X |- *. destruct (chain _ 0 (a :: ls) x) as [[o1 l1]| |], (chain _ 0 (_ :: _) x) as [[o2 l2]| |]; cbn [bind net_added added_from] in X |- *; auto; try contradiction.
  destruct X as (-> & -> & X). auto.
Qed.
Lemma net_training_added r r' n x t : same_draws (where_ ms) r r' -> fit n -> net_added (net_outputForTraining r n x t) (net_outputForTraining r' (add_options ms n) x t).
Proof.
  intros Hr Hf. unfold net_outputForTraining, add_options. cbn [nn_layers nn_opt nn_nan nn_trainings]. destruct (nn_layers n) as [|a ls] eqn:E; [cbn; auto|].
  assert (Hf' : fit_from 0 (a :: ls)) by (unfold fit in Hf; now rewrite E in Hf).
  pose proof (chain_added (fun i l v => layer_outputForTraining (r i) l v t) (fun i l v => layer_outputForTraining (r' i) l v t) (a :: ls) (fun i l y H => layer_training_added (ms i) (Hms i) (r i) (r' i) l y t H (Hr i)) 0 x Hf') as X.
  cbn [add_from] in X |- *. destruct (chain _ 0 (a :: ls) x) as [[o1 l1]| |], (chain _ 0 (_ :: _) x) as [[o2 l2]| |]; cbn [bind net_added added_from] in X |- *; auto; try contradiction.
  destruct X as (-> & -> & X). auto.
Qed.
Lemma last_neurons ls : forall i d, getNumberOfNeurons (last (add_from ms i ls) (add_to (ms i) d)) = getNumberOfNeurons (last ls d).
Proof.
  induction ls as [|l t IH]; intros i d; [reflexivity|]. cbn. destruct t as [|l2 t]; [reflexivity|]. cbn [add_from] in *. 
  assert (L : forall a b (u : list Layer) c, last (c :: u) a = last (c :: u) b) by (intros a b u; induction u as [|y u IHu]; intros c; [reflexivity|]; cbn in *; apply IHu).
  specialize (IH (S i) d). rewrite (L _ (add_to (ms (S i)) d)). exact IH.
Qed.
Lemma trainOnce_added r r' n x d t : same_draws (where_ ms) r r' -> fit n -> net_added1 (trainOnce r n x d t) (trainOnce r' (add_options ms n) x d t).
Proof.
  intros Hr Hf. unfold trainOnce, backpropagation. pose proof (net_training_added r r' n x t Hr Hf) as X.
  destruct (net_outputForTraining r n x t) as [[out n1]| |], (net_outputForTraining r' _ x t) as [[out' n2]| |]; cbn [bind net_added net_added1] in X |- *; auto; try contradiction.
  destruct X as (-> & -> & Hf1). clear Hf n. unfold add_options at 1. cbn [nn_nan]. destruct (nn_nan n1) eqn:En.
  { cbn. unfold add_options. cbn. auto. }
  unfold add_options at 1. cbn [nn_layers]. unfold fit in Hf1. destruct (nn_layers n1) as [|a ls] eqn:El; [cbn; auto|]. cbn [add_from].
  pose proof (last_neurons (a :: ls) 0 a) as LN. cbn [add_from] in LN. rewrite LN.
  destruct (calculateError _ out d) as [e| |]; cbn [bind net_added1]; auto. unfold add_options at 1. cbn [nn_opt].
  apply fit_cons in Hf1 as [Ha Hls]. pose proof (chain_back_added (nn_opt n1) ls 1 e Hls) as X.
  destruct (chain_back (nn_opt n1) ls e) as [[e1 l1]| |], (chain_back (nn_opt n1) (add_from ms 1 ls) e) as [[e2 l2]| |]; cbn [bind net_added1 added_from] in X |- *; auto; try contradiction.
  destruct X as (-> & -> & Hl1). unfold add_options at 1. cbn [nn_opt]. pose proof (layer_train_added (ms 0) (Hms 0) (nn_opt n1) a e1 Ha) as X.
  destruct (layer_train (nn_opt n1) a e1) as [a1| |], (layer_train (nn_opt n1) _ e1) as [a2| |]; cbn [bind net_added1] in X |- *; auto; try contradiction.
  destruct X as (-> & Ha1). unfold add_options. cbn. split; [now rewrite En|]. unfold fit. cbn. now apply fit_cons.
Qed.
Lemma inspect_added n x : fit n -> net_added (getLayerOutputs n x) (getLayerOutputs (add_options ms n) x).
Proof.
  intros Hf. unfold getLayerOutputs, add_options. cbn [nn_layers nn_opt nn_nan nn_trainings]. unfold fit in Hf. destruct (nn_layers n) as [|a ls] eqn:E; [cbn; auto|].
  pose proof (chain_outputs_added (a :: ls) 0 x Hf) as X. cbn [add_from] in X |- *.
  destruct (chain_outputs (a :: ls) x) as [[o1 l1]| |], (chain_outputs (_ :: _) x) as [[o2 l2]| |]; cbn [bind net_added added_from] in X |- *; auto; try contradiction.
  destruct X as (-> & -> & X). auto.
Qed.
Lemma perform_added n c c' : same_call (where_ ms) c c' -> fit n -> net_added (perform n c) (perform (add_options ms n) c').
Proof.
  intros Hc Hf. destruct c as [r x d t|x t|x], c' as [r' x' d' t'|x' t'|x']; cbn in Hc; try contradiction.
  - destruct Hc as (-> & -> & -> & Hr). cbn. pose proof (trainOnce_added r r' n x d t Hr Hf) as X.
    destruct (trainOnce r n x d t), (trainOnce r' _ x d t); cbn in X |- *; auto; try contradiction.
  - destruct Hc as (-> & ->). cbn. pose proof (net_output_added n x t Hf) as X. destruct (net_output n x t) as [[]| |], (net_output _ x t) as [[]| |]; cbn in X |- *; auto; try contradiction.
    destruct X as (-> & -> & X). auto.
  - subst x'. cbn. pose proof (inspect_added n x Hf) as X. destruct (getLayerOutputs n x) as [[]| |], (getLayerOutputs _ x) as [[]| |]; cbn in X |- *; auto; try contradiction.
    destruct X as (-> & -> & X). auto.
Qed.
Lemma perform_all_added cs cs' : Forall2 (same_call (where_ ms)) cs cs' -> forall n, fit n -> net_added (perform_all n cs) (perform_all (add_options ms n) cs').
Proof.
  induction 1 as [|c c' t t' Hc _ IH]; intros n Hf; [cbn; auto|]. cbn [perform_all]. pose proof (perform_added n c c' Hc Hf) as X.
  destruct (perform n c) as [[a n1]| |], (perform _ c') as [[a' n2]| |]; cbn [bind net_added] in X |- *; auto; try contradiction. destruct X as (-> & -> & Hf1).
  specialize (IH n1 Hf1). destruct (perform_all n1 t) as [[r n3]| |], (perform_all _ t') as [[r' n4]| |]; cbn [bind net_added] in IH |- *; auto; try contradiction. destruct IH as (-> & -> & IH). auto.
Qed.
Lemma added_weights ls : forall i, map layer_weights (add_from ms i ls) = map layer_weights ls.
Proof. induction ls as [|l t IH]; intros i; [reflexivity|]. cbn. now rewrite IH. Qed.
Lemma added_same_end p p' : net_added p p' -> same_end p p'.
Proof.
  destruct p as [[a n]| |], p' as [[a' n']| |]; cbn; auto. intros (-> & -> & _). split; [reflexivity|]. split; [|split; reflexivity]. unfold net_weights, add_options. cbn. apply added_weights.
Qed.
End W.
End P.

(* the construction *)
Section B.
Context {N : Num}.
Section One.
Variables (draws : nat -> nat -> nat -> F) (masks masks' : nat -> nat -> bool) (d : LDesc) (m : nat * list odesc).
Let d' := with_options m d.
Definition same_built (p p' : outcome Layer) : Prop :=
  match p, p' with Ok l, Ok l' => exists nin b, l = finish masks nin d b /\ l' = finish masks' nin d' b | Throw a, Throw b => b = a | UB, UB => True | _, _ => False end.
Lemma sb_bind {A} (x : outcome A) k k' : (forall a, same_built (k a) (k' a)) -> same_built (bind x k) (bind x k').
Proof. intros H. destruct x; cbn; auto. Qed.
Lemma sb_if (b : bool) p p' q q' : same_built p p' -> same_built q q' -> same_built (if b then p else q) (if b then p' else q').
Proof. now destruct b. Qed.
Lemma sb_ok nin b : same_built (Ok (finish masks nin d b)) (Ok (finish masks' nin d' b)). Proof. cbn. eauto. Qed.
Lemma sb_dims shape one one' two two' : (forall a b, same_built (one a b) (one' a b)) -> (forall a b c, same_built (two a b c) (two' a b c)) -> same_built (dims shape one two) (dims shape one' two').
Proof. intros H1 H2. unfold dims. destruct shape as [|x [|y [|z [|]]]]; cbn; auto. Qed.
Ltac sb := repeat first [apply sb_ok | apply sb_if | apply sb_bind; intro | reflexivity | exact I].
Lemma build_layer_added shape : same_built (build_layer draws masks d shape) (build_layer draws masks' d' shape).
Proof.
  unfold build_layer. apply sb_bind. intros inputs. destruct shape as [|z t]; [reflexivity|]. apply sb_if; [reflexivity|].
  change (d_type d') with (d_type d). change (d_neurons d') with (d_neurons d). change (d_bias d') with (d_bias d). change (d_act d') with (d_act d).
  destruct (d_type d); try reflexivity.
  - sb.
  - sb.
  - sb.
  - apply sb_dims; intros; unfold build_pool1D, build_pool2D; change (d_ksize d') with (d_ksize d); sb.
  - apply sb_dims; intros; unfold build_loc1D, build_loc2D; change (d_ksize d') with (d_ksize d); change (d_filters d') with (d_filters d); change (filter_neurons draws d') with (filter_neurons draws d); sb.
  - apply sb_dims; intros; unfold build_conv1D, build_conv2D; change (d_ksize d') with (d_ksize d); change (d_filters d') with (d_filters d); change (filter_neurons draws d') with (filter_neurons draws d); sb.
Qed.
End One.
Lemma build_opts_from (masks : nat -> nat -> bool) n os k : map (fun p => build_opt (masks (fst p)) n (snd p)) (combine (seq k (List.length os)) os) = build_opts (fun o => masks (k + o)) n os.
Proof.
  unfold build_opts. rewrite <- (Nat.add_0_r k) at 1. generalize 0 as j. induction os as [|o t IH]; intros j; [reflexivity|]. cbn. f_equal. specialize (IH (S j)). rewrite Nat.add_succ_r in IH. exact IH.
Qed.
Lemma build_opts_app masks n a b : build_opts masks n (a ++ b) = build_opts masks n a ++ build_opts (fun o => masks (List.length a + o)) n b.
Proof.
  rewrite <- build_opts_from. unfold build_opts. rewrite app_length, seq_app. cbn [Nat.add].
  assert (X : forall (A B : Type) (l1 l2 : list A) (m1 m2 : list B), List.length l1 = List.length m1 -> combine (l1 ++ l2) (m1 ++ m2) = combine l1 m1 ++ combine l2 m2).
  { intros A B. induction l1 as [|x l1 IH]; intros l2 [|y m1] m2 E; try discriminate; [reflexivity|]. cbn. f_equal. apply IH. now injection E. }
  rewrite X by now rewrite seq_length. apply map_app.
Qed.
Lemma build_opt_ext f g n o : (forall i, f i = g i) -> build_opt f n o = build_opt g n o.
Proof. intros H. destruct o; try reflexivity. cbn. now rewrite (map_ext _ _ H). Qed.
Lemma build_opts_ext f g n os : (forall o i, o < List.length os -> f o i = g o i) -> build_opts f n os = build_opts g n os.
Proof.
  intros H. unfold build_opts. apply map_ext_in. intros [o p] Hin. apply in_combine_l in Hin. apply in_seq in Hin. cbn. apply build_opt_ext. intros i. apply H. lia.
Qed.
Lemma build_opts_len f n os : List.length (build_opts f n os) = List.length os.
Proof. unfold build_opts. rewrite map_length, combine_length, seq_length. apply Nat.min_id. Qed.
Lemma build_opts_added masks masks' n os m : fst m <= List.length os ->
  (forall o i, (o < fst m -> masks' o i = masks o i) /\ (fst m <= o -> masks' (o + List.length (snd m)) i = masks o i) /\ (fst m <= o < fst m + List.length (snd m) -> masks' o i = true)) ->
  build_opts masks' n (firstn (fst m) os ++ snd m ++ skipn (fst m) os) =
  firstn (fst m) (build_opts masks n os) ++ build_opts (fun _ _ => true) n (snd m) ++ skipn (fst m) (build_opts masks n os).
Proof.
  intros L H. destruct m as [k ex]. cbn [fst snd] in *. assert (Lf : List.length (firstn k os) = k) by now apply firstn_length_le.
  assert (Lb : List.length (build_opts masks n (firstn k os)) = k) by now rewrite build_opts_len.
  assert (B : build_opts masks n os = build_opts masks n (firstn k os) ++ build_opts (fun o => masks (k + o)) n (skipn k os)).
  { rewrite <- (firstn_skipn k os) at 1. now rewrite build_opts_app, Lf. }
  assert (B1 : firstn k (build_opts masks n os) = build_opts masks n (firstn k os)).
  { rewrite B, firstn_app, Lb, Nat.sub_diag, firstn_O, app_nil_r. rewrite <- Lb at 1. apply firstn_all. }
  assert (B2 : skipn k (build_opts masks n os) = build_opts (fun o => masks (k + o)) n (skipn k os)).
  { rewrite B, skipn_app, Lb, Nat.sub_diag, skipn_O. rewrite <- Lb at 1. now rewrite skipn_all. }
  rewrite B1, B2, !build_opts_app, Lf.
  f_equal; [apply build_opts_ext; intros; apply H; lia|]. f_equal; [apply build_opts_ext; intros; apply H; lia|].
  apply build_opts_ext. intros o i _. rewrite <- (proj1 (proj2 (H (k + o) i))) by lia. f_equal. lia.
Qed.
Lemma build_one (one : forall x : F, fmul x fone = x) n ex : Forall one_option ex -> Forall idle (build_opts (fun _ _ => true) n ex).
Proof.
  intros H. unfold build_opts. apply Forall_map, Forall_forall. intros [i o] Hin. apply in_combine_r in Hin. rewrite Forall_forall in H. specialize (H o Hin). apply (one_idle one).
  destruct o; cbn in *; try contradiction; auto. split; [exact H|]. apply Forall_map, Forall_forall. reflexivity.
Qed.
Lemma build_zero (one : forall x : F, fmul x fone = x) (zero : forall x y : F, fadd x (fmul y fzero) = x) n ex : Forall (fun o => one_option o \/ zero_option o) ex -> Forall idle (build_opts (fun _ _ => true) n ex).
Proof.
  intros H. unfold build_opts. apply Forall_map, Forall_forall. intros [i o] Hin. apply in_combine_r in Hin. rewrite Forall_forall in H. specialize (H o Hin).
  destruct H as [H|H].
  - pose proof (build_one one n [o] (Forall_cons o H (Forall_nil _))) as X. inversion X as [|? ? X1 _]. exact X1.
  - apply (zero_idle zero). destruct o; cbn in *; auto.
Qed.
(* the networks built *)
Section All.
Variables (draws : nat -> nat -> nat -> nat -> F) (masks masks' : nat -> nat -> nat -> bool) (ms : addition).
Hypothesis Hd : same_draws (counts ms) masks masks'.
Definition opts_of (i n : nat) : nat * list LOpt := (fst (ms i), build_opts (fun _ _ => true) n (snd (ms i))).
(* the options put into the layer number [i] of a network, [ls] being its layers *)
Definition built_extras (i : nat) (ls : list Layer) : extras := fun j => opts_of j (match nth_error ls (j - i) with Some l => getNumberOfNeurons l | None => 0 end).
Lemma add_from_ext (e1 e2 : extras) ls : forall i, (forall j, i <= j < i + List.length ls -> e1 j = e2 j) -> add_from e1 i ls = add_from e2 i ls.
Proof. induction ls as [|l t IH]; intros i H; [reflexivity|]. cbn. rewrite (H i) by (cbn; lia). f_equal. apply IH. intros j Hj. apply H. cbn. lia. Qed.
Lemma finish_added i d nin b : fst (ms i) <= List.length (d_opts d) -> finish (masks' i) nin (with_options (ms i) d) b = add_to (opts_of i (List.length (body_weights b))) (finish (masks i) nin d b).
Proof.
  intros L. unfold finish, add_to, opts_of. cbn [l_in l_body l_opts fst snd with_options d_opts]. f_equal. apply build_opts_added; [exact L|]. intros o x. exact (Hd i o x).
Qed.
Lemma build_rest_added : forall ds i shape, (forall k d, nth_error ds k = Some d -> fst (ms (i + k)) <= List.length (d_opts d)) ->
  match build_rest draws masks i ds shape, build_rest draws masks' i (with_more ms i ds) shape with
  | Ok ls, Ok ls' => ls' = add_from (built_extras i ls) i ls /\ (forall k l, nth_error ls k = Some l -> fst (ms (i + k)) <= List.length (l_opts l))
  | Throw a, Throw b => b = a | UB, UB => True | _, _ => False
  end.
Proof.
  induction ds as [|d t IH]; intros i shape Hp; [cbn; split; [reflexivity|intros []; discriminate]|]. cbn [build_rest with_more].
  pose proof (build_layer_added (draws i) (masks i) (masks' i) d (ms i) shape) as X. unfold same_built in X.
  destruct (build_layer (draws i) (masks i) d shape) as [l| |], (build_layer (draws i) (masks' i) (with_options (ms i) d) shape) as [l'| |]; cbn [bind]; auto; try contradiction.
  destruct X as (nin & b & -> & ->). assert (Li : fst (ms i) <= List.length (d_opts d)) by (rewrite <- (Nat.add_0_r i); now apply (Hp 0)).
  rewrite (finish_added i d nin b Li).
  assert (Es : getShapeOfOutput (add_to (opts_of i (List.length (body_weights b))) (finish (masks i) nin d b)) = getShapeOfOutput (finish (masks i) nin d b)) by reflexivity.
  rewrite Es. specialize (IH (S i) (map Z.of_nat (getShapeOfOutput (finish (masks i) nin d b)))).
  assert (Hp' : forall k d0, nth_error t k = Some d0 -> fst (ms (S i + k)) <= List.length (d_opts d0)) by (intros k d0 E; specialize (Hp (S k) d0 E); now rewrite Nat.add_succ_r in Hp).
  specialize (IH Hp'). destruct (build_rest draws masks (S i) t _) as [ls| |], (build_rest draws masks' (S i) _ _) as [ls'| |]; cbn [bind]; auto; try contradiction.
  destruct IH as (-> & Hl). split.
  - cbn [add_from]. f_equal.
    + unfold built_extras. rewrite Nat.sub_diag. reflexivity.
    + apply add_from_ext. intros j Hj. unfold built_extras. replace (j - i) with (S (j - S i)) by lia. reflexivity.
  - intros [|k] l E; cbn in E.
    + injection E as <-. rewrite Nat.add_0_r. unfold finish. cbn [l_opts]. rewrite build_opts_len. exact Li.
    + rewrite Nat.add_succ_r. now apply Hl.
Qed.
Lemma with_more_length ds : forall i, List.length (with_more ms i ds) = List.length ds.
Proof. induction ds as [|d t IH]; intros i; [reflexivity|]. cbn. now rewrite IH. Qed.
Lemma added_valid (e : extras) ls : forall i, map layer_isValid (add_from e i ls) = map layer_isValid ls.
Proof. induction ls as [|l t IH]; intros i; [reflexivity|]. cbn. now rewrite IH. Qed.
Lemma added_len (e : extras) ls : forall i, List.length (add_from e i ls) = List.length ls.
Proof. induction ls as [|l t IH]; intros i; [reflexivity|]. cbn. now rewrite IH. Qed.
Lemma construct_added d0 ds lr m : places ms ds ->
  match construct draws masks (d0 :: ds) lr m, construct draws masks' (d0 :: with_more ms 0 ds) lr m with
  | Ok n, Ok n' => n' = add_options (built_extras 0 (nn_layers n)) n /\ fit (built_extras 0 (nn_layers n)) n
  | Throw a, Throw b => b = a | UB, UB => True | _, _ => False
  end.
Proof.
  intros Hp. unfold construct, build_all. cbn [List.length]. rewrite with_more_length. destruct (1000 <? _)%Z; [reflexivity|].
  destruct (d_type d0); try reflexivity. destruct ds as [|d1 ds]; [reflexivity|]. cbn [with_more]. destruct (product (d_shape d0)) as [n| |]; cbn [bind]; auto.
  destruct (2073600 <? n)%Z; [reflexivity|]. pose proof (build_rest_added (d1 :: ds) 0 (d_shape d0) Hp) as X. cbn [with_more] in X.
  destruct (build_rest draws masks 0 (d1 :: ds) (d_shape d0)) as [ls| |], (build_rest draws masks' 0 _ (d_shape d0)) as [ls'| |]; cbn [bind]; auto; try contradiction.
  destruct X as (E0 & Hl). subst ls'.
  assert (V : net_isValid (mkNet (add_from (built_extras 0 ls) 0 ls) (mkSGD lr m) false 0) = net_isValid (mkNet ls (mkSGD lr m) false 0)).
  { unfold net_isValid. cbn [nn_layers nn_opt]. rewrite added_valid. 
    assert (LL : List.length (add_from (built_extras 0 ls) 0 ls) = List.length ls) by apply added_len. rewrite LL.
    destruct ls; reflexivity. }
  rewrite V. destruct (net_isValid (mkNet ls (mkSGD lr m) false 0)) as [e| |]; cbn [bind]; auto. destruct (e =? 0)%Z; [|reflexivity]. split; [reflexivity|]. exact Hl.
Qed.
Lemma same_call_where ls c c' : same_call (counts ms) c c' -> same_call (where_ (built_extras 0 ls)) c c'.
Proof.
  destruct c, c'; cbn; try tauto. intros (-> & -> & -> & H). repeat (split; [reflexivity|]). intros l o i. specialize (H l o i). unfold where_, built_extras, opts_of, counts in *. cbn [fst snd] in *.
  rewrite build_opts_len. exact H.
Qed.
Lemma construct_lives d0 ds lr m : places ms ds -> (forall i n, Forall idle (build_opts (fun _ _ => true) n (snd (ms i)))) ->
  same_lives (construct draws masks (d0 :: ds) lr m) (construct draws masks' (d0 :: with_more ms 0 ds) lr m) (counts ms).
Proof.
  intros Hp Hi. pose proof (construct_added d0 ds lr m Hp) as X. unfold same_lives.
  destruct (construct draws masks (d0 :: ds) lr m) as [n| |], (construct draws masks' _ lr m) as [n'| |]; auto.
  destruct X as (-> & Hf). intros cs cs' Hc. apply (added_same_end (built_extras 0 (nn_layers n))). apply perform_all_added; [intros i; apply Hi| |exact Hf].
  eapply F2_imp; [|exact Hc]. intros c c'. apply same_call_where.
Qed.
End All.
End B.
