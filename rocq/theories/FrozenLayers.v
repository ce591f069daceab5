(* A layer whose errors are multiplied by 0 and the layers before it, in a network that learns after it. *)
From Verif Require Import Base Num ActModel NeuronModel LayerModel NetModel StatModel DataModel FactoryModel TrainModel SaveModel SaveSpec LookSpec LookProofs PoolProofs AlikeProofs AlikeTrain BuildProofs.
From Verif Require Import NeutralSpec NeutralTrainSpec NeutralProofs RateSpec RateProofs RateNet RateBuilt RateTrain RateUsers FrozenSpec FrozenProofs FrozenUsers.
From Coq Require Import Reals Lia Lra FunctionalExtensionality.
Local Open Scope outcome_scope.
Local Open Scope list_scope.
Local Existing Instance RNum.
Local Open Scope nat_scope.

Section Layers.
Variable o : @SGD RNum.
Definition o0 : @SGD RNum := mkSGD 0%R (o_m o).
Lemma o0_rate : o_lr o0 = 0%R. Proof. reflexivity. Qed.
Lemma o0_lr : o_lr o0 = (0 * o_lr o)%R. Proof. symmetry. apply Rmult_0_l. Qed.
Lemma o0_m : o_m o = o_m o0. Proof. reflexivity. Qed.
Lemma zeros_sc (e : list (@F RNum)) : zeros e -> scs 0%R e e.
Proof. intros H. induction H as [|x e <- _ IH]; constructor; auto. symmetry. apply Rmult_0_l. Qed.
Lemma sc_zeros (e e' : list (@F RNum)) : scs 0%R e e' -> zeros e'.
Proof. intros H. induction H as [|x y e e' E _ IH]; constructor; auto. rewrite E. symmetry. apply Rmult_0_l. Qed.
(* the body does as one that the rate 0 keeps *)
Definition heldB ws (b : Body) : Prop := exists a, bsc 0%R a b /\ frozenB ws a.
Lemma held_output ws b x t : heldB ws b -> post (fun p => heldB ws (snd p)) (body_output b x t).
Proof.
  intros (a & H & Z). pose proof (bsc_output 0%R a b x t H) as X. pose proof (body_output_frozen ws a x t Z) as Y.
  destruct (body_output a x t) as [(q & a')| |], (body_output b x t) as [(q' & b')| |]; cbn in X, Y |- *; try contradiction; auto. exists a'. split; [apply X|exact Y].
Qed.
Lemma held_back ws nin b e : heldB ws b -> zeros e -> post (fun p => zeros (fst p) /\ heldB ws (snd p)) (body_back o nin b e).
Proof.
  intros (a & H & Z) He. pose proof (bsc_back 0%R o0 o o0_lr o0_m nin a b e e H (zeros_sc e He)) as X. pose proof (body_back_frozen o0 o0_rate ws nin a e Z) as Y.
  destruct (body_back o0 nin a e) as [(q & a')| |], (body_back o nin b e) as [(q' & b')| |]; cbn in X, Y |- *; try contradiction; auto. destruct X as (E & X). split; [eapply sc_zeros; exact E|]. exists a'. now split.
Qed.
Lemma held_train ws b e : heldB ws b -> zeros e -> post (heldB ws) (body_train o b e).
Proof.
  intros (a & H & Z) He. pose proof (bsc_train 0%R o0 o o0_lr o0_m a b e e H (zeros_sc e He)) as X. pose proof (body_train_frozen o0 o0_rate ws a e Z) as Y.
  destruct (body_train o0 a e) as [a'| |], (body_train o b e) as [b'| |]; cbn in X, Y |- *; try contradiction; auto. exists a'. now split.
Qed.
Lemma held_w ws b : heldB ws b -> Forall2 unlearned ws (body_weights b).
Proof.
  intros (a & H & Z). rewrite (bsc_w _ _ _ H). apply frozenB_w in Z. revert Z. generalize (body_weights a). intros v Z.
  induction Z as [|x y u v Hxy _ IH]; constructor; auto. destruct Hxy as [X|X]; [now left|right]. assert (E0 : (0%R : @F RNum) = fofZ 0) by (change (0 = 0 / 1)%R; lra). rewrite <- E0. exact X.
Qed.
(* options *)
Definition plainOpt (op : LOpt) : Prop := match op with OL1 _ | OL2 _ => False | _ => True end.
Definition stopping (ops : list LOpt) : Prop := exists p, ops = p ++ [@OMult RNum 0%R].
Lemma mask_zeros e mask : zeros e -> zeros (mulMask e mask).
Proof.
  intros H. apply (sc_zeros (mulMask e mask)). apply (mulMask_sc 0%R). now apply zeros_sc.
Qed.
Lemma plain_zeros ws ops : Forall plainOpt ops -> forall e, zeros e -> zeros (opts_back ws ops e).
Proof.
  unfold opts_back. induction 1 as [|op ops Ho _ IH]; intros e He; cbn [fold_left]; [exact He|]. apply IH. destruct op; cbn [opt_back]; try contradiction; auto.
  - now apply mask_zeros.
  - induction He as [|x e <- _ IHe]; cbn [map]; constructor; auto. symmetry. apply Rmult_0_l.
Qed.
Lemma stopping_zeros ws ops e : stopping ops -> zeros (opts_back ws ops e).
Proof.
  intros (p & ->). unfold opts_back. rewrite fold_left_app. cbn [fold_left opt_back]. generalize (fold_left (fun e op => opt_back ws op e) p e). intros l. induction l as [|x l IH]; cbn [map]; constructor; auto. symmetry. apply Rmult_0_r.
Qed.
Lemma training_kinds r t ops : forall i x, post (fun p => Forall2 (fun a b => (plainOpt a -> plainOpt b) /\ (a = @OMult RNum 0%R -> b = a)) ops (snd p)) (opts_training r t i ops x).
Proof.
  induction ops as [|op ops IH]; intros i x; cbn [opts_training]; [constructor|]. eapply (post_bind (fun p => (plainOpt op -> plainOpt (snd p)) /\ (op = @OMult RNum 0%R -> snd p = op))).
  - destruct op; cbn [opt_training]; try (cbn; split; [auto|]; intros; congruence). apply post_any. intros; cbn; split; auto.
  - intros (x' & op') Ho. eapply post_bind; [apply IH|]. intros (x'' & ops') Hl. cbn in *. now constructor.
Qed.
Lemma kinds_plain ops ops' : Forall2 (fun a b => (plainOpt a -> plainOpt b) /\ (a = @OMult RNum 0%R -> b = a)) ops ops' -> Forall plainOpt ops -> Forall plainOpt ops'.
Proof. induction 1 as [|a b u v (Hab & _) _ IH]; intros H; inversion H; subst; constructor; auto. Qed.
Lemma kinds_stopping ops ops' : Forall2 (fun a b => (plainOpt a -> plainOpt b) /\ (a = @OMult RNum 0%R -> b = a)) ops ops' -> stopping ops -> stopping ops'.
Proof. intros H (p & ->). apply Forall2_app_inv_l in H as (p' & q & Hp & Hq & ->). inversion Hq as [|a b u v (_ & Hb) Hv]; subst. inversion Hv; subst. exists p'. now rewrite Hb. Qed.
(* chains *)
Inductive fz : list (list (list (@F RNum))) -> list Layer -> Prop :=
| fz_last ws l t : heldB ws (l_body l) -> stopping (l_opts l) -> fz [ws] (l :: t)
| fz_cons ws wss l t : heldB ws (l_body l) -> Forall plainOpt (l_opts l) -> fz wss t -> fz (ws :: wss) (l :: t).
Definition kept (ws : list (list (@F RNum))) (l l' : Layer) : Prop := (heldB ws (l_body l) -> heldB ws (l_body l')) /\ (Forall plainOpt (l_opts l) -> Forall plainOpt (l_opts l')) /\ (stopping (l_opts l) -> stopping (l_opts l')).
Lemma layer_output_kept ws l x t : heldB ws (l_body l) -> post (fun p => kept ws l (snd p)) (layer_output l x t).
Proof. intros H. unfold layer_output. eapply post_bind; [apply held_output; exact H|]. intros (q & b) Hb. apply post_any. intros u. cbn. repeat split; auto. Qed.
Lemma layer_training_kept ws r l x t : heldB ws (l_body l) -> post (fun p => kept ws l (snd p)) (layer_outputForTraining r l x t).
Proof.
  intros H. unfold layer_outputForTraining. eapply post_bind; [apply held_output; exact H|]. intros (q & b) Hb. eapply post_bind; [apply training_kinds|]. intros (u & v) Hv. cbn in *.
  repeat split; cbn; auto; [eapply kinds_plain|eapply kinds_stopping]; exact Hv.
Qed.
Lemma fz_chain f wss ls : (forall i ws l x, heldB ws (l_body l) -> post (fun p => kept ws l (snd p)) (f i l x)) -> fz wss ls -> forall i x, post (fun p => fz wss (snd p)) (chain f i ls x).
Proof.
  intros Hf H. induction H as [ws l t Hl Ho|ws wss l t Hl Ho H IH]; intros i x; cbn [chain].
  - eapply post_bind; [apply Hf; exact Hl|]. intros (q & l') (K1 & K2 & K3). apply post_any. intros (q' & t'). constructor; auto.
  - eapply post_bind; [apply Hf; exact Hl|]. intros (q & l') (K1 & K2 & K3). eapply post_bind; [apply IH|]. intros (q' & t') Ht. cbn in *. constructor; auto.
Qed.
Lemma fz_outputs wss ls : fz wss ls -> forall x, post (fun p => fz wss (snd p)) (chain_outputs ls x).
Proof.
  intros H. induction H as [ws l t Hl Ho|ws wss l t Hl Ho H IH]; intros x; cbn [chain_outputs].
  - eapply post_bind; [apply layer_output_kept; exact Hl|]. intros (q & l') (K1 & K2 & K3). apply post_any. intros (q' & t'). constructor; auto.
  - eapply post_bind; [apply layer_output_kept; exact Hl|]. intros (q & l') (K1 & K2 & K3). eapply post_bind; [apply IH|]. intros (q' & t') Ht. cbn in *. constructor; auto.
Qed.
Lemma layer_back_held ws l e : heldB ws (l_body l) -> zeros (opts_back (layer_weights l) (l_opts l) e) -> post (fun p => zeros (fst p) /\ heldB ws (l_body (snd p)) /\ l_opts (snd p) = l_opts l) (layer_backOutput o l e).
Proof. intros H Hz. unfold layer_backOutput. cbv zeta. eapply post_bind; [apply held_back; [exact H|exact Hz]|]. intros (q & b) (Hq & Hb). cbn. auto. Qed.
Lemma layer_train_held ws l e : heldB ws (l_body l) -> zeros (opts_back (layer_weights l) (l_opts l) e) -> post (fun l' => heldB ws (l_body l') /\ l_opts l' = l_opts l) (layer_train o l e).
Proof. intros H Hz. unfold layer_train. cbv zeta. eapply post_bind; [apply held_train; [exact H|exact Hz]|]. intros b Hb. cbn. auto. Qed.
Lemma fz_back wss ls : fz wss ls -> forall e, post (fun p => zeros (fst p) /\ fz wss (snd p)) (chain_back o ls e).
Proof.
  intros H. induction H as [ws l t Hl Ho|ws wss l t Hl Ho H IH]; intros e; cbn [chain_back].
  - apply post_any. intros (q & t'). eapply post_bind; [apply layer_back_held; [exact Hl|now apply stopping_zeros]|]. intros (q' & l') (Hz & Hb & E). cbn in *. split; [exact Hz|]. constructor; [exact Hb|now rewrite E].
  - eapply post_bind; [apply IH|]. intros (q & t') (Hq & Ht). eapply post_bind; [apply layer_back_held; [exact Hl|now apply plain_zeros]|]. intros (q' & l') (Hz & Hb & E). cbn in *. split; [exact Hz|]. constructor; [exact Hb|now rewrite E|exact Ht].
Qed.
Definition fzNet wss (n : Net) : Prop := fz wss (nn_layers n) /\ nn_opt n = o.
Lemma fz_output wss n x t : fzNet wss n -> post (fun p => fzNet wss (snd p)) (net_output n x t).
Proof.
  intros (H & E). unfold net_output. destruct (nn_layers n) as [|l ls]; [exact I|]. eapply post_bind; [apply fz_chain; [|exact H]; intros; now apply layer_output_kept|]. intros (q & ls') Hls. now split.
Qed.
Lemma fz_training wss r n x t : fzNet wss n -> post (fun p => fzNet wss (snd p)) (net_outputForTraining r n x t).
Proof.
  intros (H & E). unfold net_outputForTraining. destruct (nn_layers n) as [|l ls]; [exact I|]. eapply post_bind; [apply fz_chain; [|exact H]; intros; now apply layer_training_kept|]. intros (q & ls') Hls. now split.
Qed.
Lemma fz_inspect wss n x : fzNet wss n -> post (fun p => fzNet wss (snd p)) (getLayerOutputs n x).
Proof. intros (H & E). unfold getLayerOutputs. destruct (nn_layers n) as [|l ls]; [exact I|]. eapply post_bind; [apply fz_outputs; exact H|]. intros (q & ls') Hls. now split. Qed.
Lemma fz_once wss r n x d t : fzNet wss n -> post (fzNet wss) (trainOnce r n x d t).
Proof.
  intros H. unfold trainOnce, backpropagation. eapply (post_bind (fzNet wss)); [|intros n' Hn'; exact Hn'].
  eapply post_bind; [apply fz_training; exact H|]. intros (out & n1) (H1 & E1). cbn [snd] in *. apply post_if; [now split|].
  destruct H1 as [ws l ls Hl Ho|ws wss' l ls Hl Ho Hls]; apply post_any; intros errs; rewrite E1.
  - apply post_any. intros (e & ls'). eapply post_bind; [apply layer_train_held; [exact Hl|now apply stopping_zeros]|]. intros l' (Hb & E). split; [|reflexivity]. cbn. constructor; [exact Hb|now rewrite E].
  - eapply post_bind; [apply fz_back; exact Hls|]. intros (e & ls') (He & Hls'). eapply post_bind; [apply layer_train_held; [exact Hl|now apply plain_zeros]|]. intros l' (Hb & E). split; [|reflexivity]. cbn in *. constructor; [exact Hb|now rewrite E|exact Hls'].
Qed.
Lemma fz_perform wss cs : forall n, fzNet wss n -> post (fun p => fzNet wss (snd p)) (perform_all n cs).
Proof.
  induction cs as [|c cs IH]; intros n H; cbn [perform_all]; [exact H|]. eapply (post_bind (fun p => fzNet wss (snd p))).
  - destruct c; cbn [perform].
    + eapply post_bind; [apply fz_once; exact H|]. intros n' Hn'. exact Hn'.
    + eapply post_bind; [apply fz_output; exact H|]. intros (q & n') Hn'. exact Hn'.
    + eapply post_bind; [apply fz_inspect; exact H|]. intros (q & n') Hn'. exact Hn'.
  - intros (a & n') Hn'. eapply post_bind; [apply IH; exact Hn'|]. intros (r & n'') Hn''. exact Hn''.
Qed.
Lemma fz_weights wss n : fzNet wss n -> Forall2 (Forall2 unlearned) wss (firstn (List.length wss) (net_weights n)).
Proof. intros (H & _). unfold net_weights. induction H as [ws l t Hl Ho|ws wss l t Hl Ho H IH]; cbn; constructor; auto; now apply held_w. Qed.
End Layers.
(* the networks built *)
Lemma build_plain masks n os : (forall op, In op os -> match op with d_l1 _ | d_l2 _ => False | _ => True end) -> Forall plainOpt (build_opts masks n os).
Proof.
  intros H. unfold build_opts. generalize 0. induction os as [|op os IH]; intros i; cbn [List.length seq combine map]; constructor.
  - specialize (H op (or_introl eq_refl)). destruct op; cbn; auto.
  - apply IH. intros x Hx. apply H. now right.
Qed.
Lemma build_rest_fz draws masks dl ts ds : Forall no_regularization ds -> forall i shape,
  post (fun ls => fz (firstn (S (List.length ds)) (map layer_weights ls)) ls) (build_rest draws masks i (ds ++ with_last_option (@d_mult RNum 0%R) dl :: ts) shape).
Proof.
  induction 1 as [|d ds Hd _ IH]; intros i shape; cbn [app build_rest List.length].
  - pose proof (build_layer_frozen (draws i) (masks i) (with_last_option (@d_mult RNum 0%R) dl) shape) as X. pose proof (build_layer_fresh 0%R (draws i) (masks i) (with_last_option (@d_mult RNum 0%R) dl) shape) as Y.
    destruct (build_layer _ _ _ shape) as [l| |]; cbn [bind post] in *; auto. apply post_any. intros ls. cbn. destruct Y as (Y1 & Y2). constructor; [exists (l_body l); now split|].
    rewrite Y2. unfold with_last_option. cbn [d_opts]. rewrite build_opts_app. eexists. reflexivity.
  - pose proof (build_layer_frozen (draws i) (masks i) d shape) as X. pose proof (build_layer_fresh 0%R (draws i) (masks i) d shape) as Y.
    destruct (build_layer _ _ d shape) as [l| |]; cbn [bind post] in *; auto. eapply post_bind; [apply IH|]. intros ls Hls. destruct Y as (Y1 & Y2). cbn. cbn in Hls. constructor; [exists (l_body l); now split| |exact Hls].
    rewrite Y2. apply build_plain. exact Hd.
Qed.
Lemma rest_len draws masks ds : forall i sh ls, build_rest draws masks i ds sh = Ok ls -> List.length ls = List.length ds.
Proof.
  induction ds as [|d ds IH]; intros i sh ls H; cbn [build_rest] in H; [now injection H as <-|]. apply bind_Ok_inv in H as (l & _ & H). apply bind_Ok_inv in H as (ls' & H' & H). injection H as <-. cbn. f_equal. eapply IH. exact H'.
Qed.
Lemma built_fz draws masks d0 ds dl ts l m n : Forall no_regularization ds -> construct draws masks (d0 :: ds ++ with_last_option (@d_mult RNum 0%R) dl :: ts) l m = Ok n ->
  fzNet (mkSGD l m) (firstn (S (List.length ds)) (net_weights n)) n /\ List.length (firstn (S (List.length ds)) (net_weights n)) = S (List.length ds).
Proof.
  intros Hr E. pose proof (construct_inv _ _ _ _ _ _ E) as (a0 & rest & X & Ht & Hb & _ & _ & En). injection X as <- <-.
  pose proof (build_rest_fz draws masks dl ts ds Hr 0 (d_shape d0)) as X. rewrite Hb in X. cbn [post] in X. split; [split; [exact X|now rewrite En]|].
  rewrite firstn_length. unfold net_weights. rewrite map_length, (rest_len _ _ _ _ _ _ Hb), app_length. cbn [List.length]. lia.
Qed.
Lemma stopped_layers draws masks d0 ds dl ts l m n : Forall no_regularization ds -> construct draws masks (d0 :: ds ++ with_last_option (@d_mult RNum 0%R) dl :: ts) l m = Ok n ->
  forall cs a n', perform_all n cs = Ok (a, n') -> Forall2 (Forall2 unlearned) (firstn (S (List.length ds)) (net_weights n)) (firstn (S (List.length ds)) (net_weights n')).
Proof.
  intros Hr E cs a n' Hp. destruct (built_fz draws masks d0 ds dl ts l m n Hr E) as (F & Len). pose proof (fz_perform _ _ cs n F) as X. rewrite Hp in X. cbn [post snd] in X. apply fz_weights in X. now rewrite Len in X.
Qed.
(* users *)
Section Users.
Variable o : @SGD RNum.
Variable wss : list (list (list (@F RNum))).
Definition steady (n n' : Net) : Prop := n' = n /\ fzNet o wss n.
Lemma out_steady {B} (p : outcome (B * Net)) : post (fun q => fzNet o wss (snd q)) p -> orel (with_out steady) p p.
Proof. destruct p as [(b & n)| |]; cbn; auto. intros H. split; [reflexivity|]. cbn. split; [reflexivity|exact H]. Qed.
Lemma net_steady (p : outcome Net) : post (fzNet o wss) p -> orel steady p p.
Proof. destruct p; cbn; auto. intros H. now split. Qed.
Lemma still_eq r r' : same_draws still r r' -> r' = r.
Proof. intros H. do 3 (apply functional_extensionality; intro). match goal with |- _ ?i ?j ?y = _ => destruct (H i j y) as (_ & X & _) end. cbn in X. specialize (X (Nat.le_0_l _)). now rewrite Nat.add_0_r in X. Qed.
Lemma train_steady fuel env w b f s d : opted steady s s -> opt_rel (orel (run_opted steady)) (train fuel env w b f s d) (train fuel env w b f s d).
Proof.
  apply (train_opted steady still); auto.
  - intros n n' (-> & _). reflexivity.
  - intros n n' (-> & _). reflexivity.
  - intros n n' (-> & _). reflexivity.
  - intros n n' x t (-> & H). apply out_steady. now apply fz_output.
  - intros r r' n n' x t Hd (-> & H). apply still_eq in Hd. subst r'. apply out_steady. now apply fz_training.
  - intros r r' n n' x y t Hd (-> & H). apply still_eq in Hd. subst r'. apply net_steady. now apply fz_once.
  - intros j. apply still_same.
Qed.
Lemma output_steady s x t : opted steady s s -> orel (with_out (opted steady)) (computeOutput s x t) (computeOutput s x t).
Proof.
  apply output_opted.
  - intros n n' (-> & _). reflexivity.
  - intros n n' y u (-> & H). apply out_steady. now apply fz_output.
Qed.
Lemma steady_self s s' : opted steady s s' -> opted steady s' s'.
Proof. intros (E & E' & H). split; [destruct s'; reflexivity|]. split; [reflexivity|]. now rewrite E'. Qed.
Lemma lives_steady acts : forall s, opted steady s s ->
  post (Forall (fun e => match e with SaveSpec.Trained w _ _ _ _ => Forall2 (Forall2 unlearned) wss (firstn (List.length wss) w) | _ => True end)) (lives s acts).
Proof.
  induction acts as [|[x t|fuel env w b f d] acts IH]; intros s H; cbn [lives]; [constructor| |].
  - pose proof (output_steady s x t H) as X. destruct (computeOutput s x t) as [(q & a)| |]; cbn in X; try exact I. cbn [bind].
    eapply post_bind; [apply (IH a); eapply steady_self; apply X|]. intros l Hl. cbn. now constructor.
  - pose proof (train_steady fuel env w b f s d H) as X. destruct (train fuel env w b f s d) as [[r|m|]|]; cbn in X; try exact I.
    + destruct X as (X & _). cbv zeta. eapply post_bind; [apply (IH _ X)|]. intros l Hl. cbn. constructor; [|exact Hl]. destruct X as (_ & _ & X). now apply fz_weights in X.
    + repeat constructor.
Qed.
End Users.
Lemma stopped_users draws masks d0 ds dl ts l m s : Forall no_regularization ds -> newSnn draws masks (d0 :: ds ++ with_last_option (@d_mult RNum 0%R) dl :: ts) l m = Ok s ->
  forall acts sn, lives s acts = Ok sn -> forall w r b d p, In (SaveSpec.Trained w r b d p) sn ->
  Forall2 (Forall2 unlearned) (firstn (S (List.length ds)) (net_weights (sn_net s))) (firstn (S (List.length ds)) w).
Proof.
  intros Hr E acts sn HL w r b d p Hin. unfold newSnn in E. apply bind_Ok_inv in E as (n & En & E). apply bind_Ok_inv in E as (q & Eq & E). injection E as <-.
  destruct (built_fz draws masks d0 ds dl ts l m n Hr En) as (F & Len). cbn [sn_net].
  match type of HL with lives ?s _ = _ => assert (HS : opted (steady (mkSGD l m) (firstn (S (List.length ds)) (net_weights n))) s s) by (split; [reflexivity|split; [reflexivity|exact F]]) end.
  pose proof (lives_steady _ _ acts _ HS) as P. rewrite HL in P. cbn [post] in P. rewrite Forall_forall in P. specialize (P _ Hin). cbv beta iota in P. now rewrite Len in P.
Qed.
