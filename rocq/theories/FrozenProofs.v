(* Layers whose errors are multiplied by 0. *)
From Coq Require Import Reals Lia Lra.
From Verif Require Import Base Num ActModel NeuronModel LayerModel NetModel FactoryModel LookSpec LookProofs PoolProofs AlikeProofs AlikeTrain BuildProofs NeutralSpec NeutralProofs RateSpec RateProofs RateNet RateBuilt FrozenSpec.
Local Open Scope outcome_scope.
Local Open Scope list_scope.
Local Existing Instance RNum.
Local Open Scope nat_scope.

Definition zeros (l : list (@F RNum)) : Prop := Forall (eq 0%R) l.
(* the weights at the beginning, the bias weight perhaps set to 0 *)
Definition spared (w0 w : list (@F RNum)) : Prop := w = w0 \/ w = removelast w0 ++ [0%R].
Definition cleared (q : Circ) : Prop := Forall zeros (q_data q).
Lemma post_imp {A} (P Q : A -> Prop) x : (forall a, P a -> Q a) -> post P x -> post Q x.
Proof. destruct x; cbn; auto. Qed.
Lemma post_lget {A} (P : A -> Prop) l i : Forall P l -> post P (lget l i).
Proof. intros H. unfold lget. destruct (nth_error l i) eqn:E; cbn; [|exact I]. eapply Forall_forall; [exact H|]. eapply nth_error_In; exact E. Qed.
Lemma Forall_replace {A} (P : A -> Prop) l : Forall P l -> forall i x, P x -> Forall P (replace l i x).
Proof. induction 1; intros [|i] y Hy; cbn; constructor; auto. Qed.
Lemma post_push q v : cleared q -> zeros v -> post cleared (pushBack q v).
Proof. intros H Hv. unfold pushBack. unfold lset. destruct (_ <? _); cbn; [|exact I]. now apply Forall_replace. Qed.
Lemma post_back q : cleared q -> post (fun p => zeros (fst p) /\ cleared (snd p)) (getBack q).
Proof. intros H. unfold getBack. eapply post_bind; [apply post_lget; exact H|]. intros v Hv. now split. Qed.
Lemma post_omap_seq {B} (P : nat -> B -> Prop) (f : nat -> outcome B) : (forall i, post (P i) (f i)) -> forall n i, post (fun r => Forall2 P (seq i n) r) (omap f (seq i n)).
Proof. intros H. induction n as [|n IH]; intros i; cbn; [constructor|]. eapply post_bind; [apply H|]. intros b Hb. eapply post_bind; [apply IH|]. intros r Hr. cbn. now constructor. Qed.
Lemma kept_weights (w d : list (@F RNum)) n : zeros d -> post (fun r => r = firstn n w /\ n <= List.length w) (omap (fun i => let* a := lget w i in let* x := lget d i in Ok (fadd a x)) (seq 0 n)).
Proof.
  intros Hd. eapply post_imp; [|apply (post_omap_seq (fun i x => nth_error w i = Some x))].
  - intros r H. assert (G : forall k i r, Forall2 (fun i x => nth_error w i = Some x) (seq i k) r -> r = firstn k (skipn i w) /\ (k = 0 \/ i + k <= List.length w)).
    { clear. induction k as [|k IH]; intros i r H; inversion H as [|? x ? r' Hx Hr]; subst; [split; [reflexivity|now left]|]. apply IH in Hr as (-> & Hk).
      assert (L : i < List.length w) by (apply nth_error_Some; congruence). split; [|right; lia].
      assert (E : skipn i w = x :: skipn (S i) w). { clear - Hx. revert i Hx. induction w as [|y w IH]; intros [|i] Hx; cbn in *; try discriminate; [injection Hx as ->; reflexivity|]. now apply IH. }
      rewrite E. reflexivity. }
    apply G in H as (-> & Hk). rewrite skipn_O. split; [reflexivity|]. lia.
  - intros i. unfold lget at 1. destruct (nth_error w i) as [a|] eqn:E; cbn [bind]; [|exact I]. eapply post_bind; [apply post_lget; exact Hd|]. intros x <-. cbn. apply (f_equal Some). apply (eq_sym (Rplus_0_r a)).
Qed.

Section Rate0.
Variable o : @SGD RNum.
Hypothesis H0 : o_lr o = 0%R.
Definition frozenN (w0 : list (@F RNum)) (n : Neuron) : Prop := List.length w0 = S (n_in n) /\ spared w0 (n_w n) /\ cleared (n_prev n).
Lemma rate_zero b e : (fmul (fdiv (o_lr o) b) e : @F RNum) = 0%R.
Proof. rewrite H0. change (0 / b * e = 0)%R. unfold Rdiv. ring. Qed.
Lemma zero_delta b e x p : p = 0%R -> (0%R : @F RNum) = fadd (fmul (fmul (fdiv (o_lr o) b) e) x) (fmul (o_m o) p).
Proof. intros ->. rewrite rate_zero. change (0 = 0 * x + o_m o * 0)%R. ring. Qed.
Lemma deltas_zero b e (xs ps : list (@F RNum)) n : zeros ps ->
  post (fun d => zeros d /\ List.length d = n) (omap (fun w => let* x := lget xs w in let* p := lget ps w in Ok (fadd (fmul (fmul (fdiv (o_lr o) b) e) x) (fmul (o_m o) p))) (seq 0 n)).
Proof.
  intros Hp. eapply post_imp; [|apply (post_omap_seq (fun _ x => 0%R = x))].
  - intros r H. split; [|symmetry; rewrite <- (seq_length n 0); eapply Forall2_len; exact H]. induction H; constructor; auto.
  - intros i. apply post_any. intros x. eapply post_bind; [apply post_lget; exact Hp|]. intros p <-. now apply zero_delta.
Qed.
Lemma spared_next w0 w n : List.length w0 = S n -> spared w0 w -> firstn n w ++ 0%R :: skipn (S n) w = removelast w0 ++ [0%R].
Proof.
  intros L H. assert (E : removelast w0 = firstn n w0) by (rewrite removelast_firstn_len, L; reflexivity).
  assert (L1 : List.length (firstn n w0) = n) by (rewrite firstn_length; lia).
  destruct H as [->| ->].
  - rewrite E. rewrite skipn_all2 by lia. reflexivity.
  - rewrite E. rewrite firstn_app, L1, Nat.sub_diag, firstn_O, app_nil_r, firstn_firstn, Nat.min_id. rewrite skipn_all2 by (rewrite app_length, L1; cbn; lia). reflexivity.
Qed.
Lemma sgd_frozen w0 n e : frozenN w0 n -> post (frozenN w0) (sgd_simple o n e).
Proof.
  intros (L & Hw & Hp). unfold sgd_simple. cbv zeta. apply post_any. intros (xs & lst). eapply post_bind; [apply post_back; exact Hp|]. intros (ps & prev) (Hps & Hprev). cbn [fst snd] in Hps, Hprev. cbn beta iota.
  eapply post_bind; [apply deltas_zero; exact Hps|]. intros d (Hd & Ld). eapply post_bind; [apply kept_weights; exact Hd|]. intros r (-> & _).
  eapply post_bind; [apply post_lget; exact Hps|]. intros pb <-. apply post_any. intros _.
  rewrite <- (zero_delta _ e (n_bias n) 0%R eq_refl).
  eapply post_bind; [apply post_push; [exact Hprev|]|].
  - apply Forall_app. split; [exact Hd|]. constructor; [reflexivity|]. apply Forall_forall. intros x Hx. apply repeat_spec in Hx. subst x. change (0 = 0 / 1)%R. lra.
  - intros q Hq. cbn. split; [exact L|]. split; [|exact Hq]. right. now apply spared_next.
Qed.
Lemma simple_back_frozen w0 n e : frozenN w0 n -> post (fun p => frozenN w0 (snd p)) (simple_backOutput o n e).
Proof. intros H. unfold simple_backOutput. cbv zeta. apply post_any. intros errs. eapply post_bind; [apply sgd_frozen|intros n' Hn'; exact Hn']. exact H. Qed.
Lemma simple_train_frozen w0 n e : frozenN w0 n -> post (frozenN w0) (simple_train o n e).
Proof. apply sgd_frozen. Qed.
Lemma simple_output_frozen w0 n x : frozenN w0 n -> post (fun p => frozenN w0 (snd p)) (simple_output n x).
Proof. intros H. unfold simple_output. repeat (apply post_any; intro). exact H. Qed.

Definition frozenR (w0 : list (@F RNum)) (r : RNeuron) : Prop := n_w (r_n r) = w0 /\ cleared (n_prev (r_n r)).
Lemma rec_sgd_frozen w0 r e : frozenR w0 r -> post (frozenR w0) (sgd_recurrent o r e).
Proof.
  intros (Hw & Hp). unfold sgd_recurrent. cbv zeta. apply post_any. intros (xs & lst). eapply post_bind; [apply post_back; exact Hp|]. intros (ps & prev) (Hps & Hprev). cbn [fst snd] in Hps, Hprev. cbn beta iota.
  eapply post_bind; [apply deltas_zero; exact Hps|]. intros d (Hd & Ld). eapply post_bind; [apply kept_weights; exact Hd|]. intros nw (-> & _).
  eapply post_bind; [apply post_lget; exact Hps|]. intros pb <-. unfold lget at 1. destruct (nth_error (n_w (r_n r)) (n_in (r_n r))) as [wr|] eqn:E; cbn [bind]; [|exact I].
  rewrite <- !(zero_delta _ _ _ 0%R eq_refl).
  eapply post_bind; [apply post_push; [exact Hprev|]|].
  - apply Forall_app. split; [exact Hd|]. constructor; [reflexivity|]. apply Forall_forall. intros x Hx. apply repeat_spec in Hx. subst x. change (0 = 0 / 1)%R. lra.
  - intros q Hq. cbn. split; [|exact Hq]. cbn. rewrite <- Hw. change (fadd (fadd wr 0%R) 0%R : @F RNum) with (wr + 0 + 0)%R. rewrite (Rplus_0_r (wr + 0)), (Rplus_0_r wr).
    transitivity (firstn (n_in (r_n r)) (n_w (r_n r)) ++ skipn (n_in (r_n r)) (n_w (r_n r))); [|apply firstn_skipn]. f_equal. symmetry. revert E. generalize (n_in (r_n r)). generalize (n_w (r_n r)). clear.
    induction l as [|y w IH]; intros [|i] Hx; cbn in *; try discriminate; [injection Hx as ->; reflexivity|]. apply (f_equal (cons y)). now apply IH.
Qed.
Lemma rec_back_frozen w0 r e : frozenR w0 r -> post (fun p => frozenR w0 (snd p)) (rec_backOutput o r e).
Proof. intros H. unfold rec_backOutput. cbv zeta. apply post_any. intros errs. eapply post_bind; [apply rec_sgd_frozen|intros n' Hn'; exact Hn']. exact H. Qed.
Lemma rec_train_frozen w0 r e : frozenR w0 r -> post (frozenR w0) (rec_train o r e).
Proof. apply rec_sgd_frozen. Qed.
Lemma rec_output_frozen w0 r x t : frozenR w0 r -> post (fun p => frozenR w0 (snd p)) (rec_output r x t).
Proof. intros H. unfold rec_output. cbv zeta. repeat (apply post_any; intro). destruct t; exact H. Qed.

Definition frozenG (w0 : list (@F RNum)) (g : GNeuron) : Prop := exists w1 w2 w3, w0 = w1 ++ w2 ++ w3 /\ frozenR w1 (g_reset g) /\ frozenR w2 (g_update g) /\ frozenR w3 (g_output g).
Lemma gru_gates_frozen w0 g e : frozenG w0 g -> post (fun p => frozenG w0 (snd p)) (gru_gates o g e).
Proof.
  intros (w1 & w2 & w3 & E & R1 & R2 & R3). unfold gru_gates. cbv zeta. eapply post_bind; [apply rec_back_frozen; exact R3|]. intros (e1 & og) X1. cbn beta iota.
  eapply post_bind; [apply rec_back_frozen; exact R2|]. intros (e2 & ug) X2. cbn beta iota. apply post_any. intros d. eapply post_bind; [apply rec_back_frozen; exact R1|]. intros (e3 & rg) X3. cbn in *. exists w1, w2, w3. auto.
Qed.
Lemma gru_back_frozen w0 g e : frozenG w0 g -> post (fun p => frozenG w0 (snd p)) (gru_backOutput o g e).
Proof.
  intros H. unfold gru_backOutput. eapply post_bind; [apply gru_gates_frozen; exact H|]. intros (((e1 & e2) & e3) & g') (w1 & w2 & w3 & X). cbn in *. exists w1, w2, w3. exact X.
Qed.
Lemma gru_train_frozen w0 g e : frozenG w0 g -> post (frozenG w0) (gru_train o g e).
Proof. intros H. unfold gru_train. eapply post_bind; [apply gru_gates_frozen; exact H|]. intros (((e1 & e2) & e3) & g') X. exact X. Qed.
Lemma gru_output_frozen w0 g x t : frozenG w0 g -> post (fun p => frozenG w0 (snd p)) (gru_output g x t).
Proof.
  intros (w1 & w2 & w3 & E & R1 & R2 & R3). unfold gru_output. cbv zeta.
  assert (R1' : frozenR w1 (g_reset (if t then gru_reset g else g))) by (destruct t; exact R1).
  assert (R2' : frozenR w2 (g_update (if t then gru_reset g else g))) by (destruct t; exact R2).
  assert (R3' : frozenR w3 (g_output (if t then gru_reset g else g))) by (destruct t; exact R3).
  eapply post_bind; [apply rec_output_frozen; exact R1'|]. intros (q1 & k1) X1. cbn beta iota.
  eapply post_bind; [apply rec_output_frozen; exact R2'|]. intros (q2 & k2) X2. cbn beta iota.
  eapply post_bind; [apply rec_output_frozen; destruct t; exact R3|]. intros (q3 & k3) X3. cbn in *. exists w1, w2, w3. repeat split; auto; first [apply X1|apply X2|apply X3].
Qed.

(* each neuron with the weights it had *)
Lemma each_frozen {A B} (P : list (@F RNum) -> A -> Prop) (f : nat -> A -> outcome (B * A)) ws l : Forall2 P ws l -> (forall i w a, P w a -> post (fun p => P w (snd p)) (f i a)) ->
  post (fun p => Forall2 P ws (snd p)) (each f l).
Proof.
  intros H Hf. unfold each. generalize 0. induction H as [|w a ws l Hwa _ IH]; intros i; cbn [each_from]; [constructor|].
  eapply post_bind; [apply Hf; exact Hwa|]. intros (b & a') Ha. eapply post_bind; [apply IH|]. intros (bs & l') Hl. cbn in *. now constructor.
Qed.
Lemma post_ofold {A S} (P : S -> Prop) (f : S -> A -> outcome S) l : (forall s a, P s -> post P (f s a)) -> forall s, P s -> post P (ofold f l s).
Proof. intros H. induction l as [|a l IH]; intros s Hs; cbn [ofold]; [exact Hs|]. eapply post_bind; [apply H; exact Hs|]. exact IH. Qed.
Inductive frozenB (ws : list (list (@F RNum))) : Body -> Prop :=
| z_full ns : Forall2 frozenN ws ns -> frozenB ws (BFull ns)
| z_rec ns : Forall2 frozenR ws ns -> frozenB ws (BRec ns)
| z_gru ns : Forall2 frozenG ws ns -> frozenB ws (BGru ns)
| z_filter k f ns : Forall2 frozenN ws ns -> frozenB ws (BFilter k f ns).
Lemma conv_output_frozen ws f ns x : Forall2 frozenN ws ns -> post (fun p => Forall2 frozenN ws (snd p)) (conv_output f ns x).
Proof.
  intros H. unfold conv_output. eapply post_bind; [apply (post_ofold (fun s => Forall2 frozenN ws (snd s))); [|exact H]|].
  - intros (s & l) row Hl. apply post_any. intros win. eapply post_bind; [apply (each_frozen frozenN); [exact Hl|]; intros; now apply simple_output_frozen|]. intros (q & l') Hl'. exact Hl'.
  - intros (s & l) Hl. apply post_any. intros u. exact Hl.
Qed.
Lemma F2_skipn_l {A B} (R : A -> B -> Prop) l l' : Forall2 R l l' -> forall n, Forall2 R (skipn n l) (skipn n l').
Proof. induction 1 as [|a b l l' Hab H IH]; intros [|n]; cbn; auto. Qed.
Lemma loc_output_frozen ws f ns x : Forall2 frozenN ws ns -> post (fun p => Forall2 frozenN ws (snd p)) (loc_output f ns x).
Proof.
  intros H. unfold loc_output. cbv zeta. apply post_if; [exact I|]. apply post_any. intros wins. eapply post_bind; [apply (each_frozen frozenN); [apply F2_firstn; exact H|]|].
  - intros i w a Ha. apply post_any. intros win. now apply simple_output_frozen.
  - intros (q & l) Hl. apply post_any. intros u. cbn. rewrite <- (firstn_skipn (List.length (f_index f) * f_filters f) ws). apply Forall2_app; [exact Hl|]. now apply F2_skipn_l.
Qed.
Lemma body_output_frozen ws b x t : frozenB ws b -> post (fun p => frozenB ws (snd p)) (body_output b x t).
Proof.
  intros [ns H|ns H|ns H|k f ns H]; cbn [body_output].
  - eapply post_bind; [apply (each_frozen frozenN); [exact H|]; intros; now apply simple_output_frozen|]. intros (q & l) Hl. now constructor.
  - eapply post_bind; [apply (each_frozen frozenR); [exact H|]; intros; now apply rec_output_frozen|]. intros (q & l) Hl. now constructor.
  - eapply post_bind; [apply (each_frozen frozenG); [exact H|]; intros; now apply gru_output_frozen|]. intros (q & l) Hl. now constructor.
  - destruct k.
    1,2: eapply post_bind; [apply conv_output_frozen; exact H|]; intros (q & l) Hl; now constructor.
    1,2: eapply post_bind; [apply loc_output_frozen; exact H|]; intros (q & l) Hl; now constructor.
    all: apply post_any; intros (q & f'); now constructor.
Qed.
Lemma conv_back_frozen ws nin f ns e : Forall2 frozenN ws ns -> post (fun p => Forall2 frozenN ws (snd p)) (conv_back o nin f ns e).
Proof.
  intros H. unfold conv_back. eapply post_bind; [apply (post_ofold (fun s => Forall2 frozenN ws (snd s))); [|exact H]|].
  - intros ((s & i) & l) row Hl. cbn in Hl. eapply post_bind; [apply (each_frozen frozenN); [exact Hl|]; intros j w a Ha; apply post_any; intros x; now apply simple_back_frozen|].
    intros (es & l') Hl'. apply post_any. intros r. exact Hl'.
  - intros ((s & i) & l) Hl. exact Hl.
Qed.
Lemma loc_back_frozen ws two nin f ns e : Forall2 frozenN ws ns -> post (fun p => Forall2 frozenN ws (snd p)) (loc_back two o nin f ns e).
Proof.
  intros H. unfold loc_back. eapply post_bind; [apply (each_frozen frozenN); [exact H|]|].
  - intros i w a Ha. apply post_any. intros x. eapply post_bind; [apply simple_back_frozen; exact Ha|]. intros (er & a') Ha'. cbv zeta. apply post_if; [exact I|]. apply post_any. intros row. exact Ha'.
  - intros (es & l) Hl. apply post_any. intros r. exact Hl.
Qed.
Lemma body_back_frozen ws nin b e : frozenB ws b -> post (fun p => frozenB ws (snd p)) (body_back o nin b e).
Proof.
  intros [ns H|ns H|ns H|k f ns H]; cbn [body_back].
  - eapply post_bind; [apply (each_frozen frozenN); [exact H|]; intros; apply post_any; intros; now apply simple_back_frozen|]. intros (q & l) Hl. apply post_any. intros r. now constructor.
  - eapply post_bind; [apply (each_frozen frozenR); [exact H|]; intros; apply post_any; intros; now apply rec_back_frozen|]. intros (q & l) Hl. apply post_any. intros r. now constructor.
  - eapply post_bind; [apply (each_frozen frozenG); [exact H|]; intros; apply post_any; intros; now apply gru_back_frozen|]. intros (q & l) Hl. apply post_any. intros r. now constructor.
  - destruct k.
    1,2: eapply post_bind; [apply conv_back_frozen; exact H|]; intros (q & l) Hl; now constructor.
    1,2: eapply post_bind; [apply loc_back_frozen; exact H|]; intros (q & l) Hl; now constructor.
    all: apply post_any; intros q; now constructor.
Qed.
Lemma trained_frozen {A} (P : list (@F RNum) -> A -> Prop) f e ws l : Forall2 P ws l -> (forall w a x, P w a -> post (P w) (f a x)) -> post (fun p => Forall2 P ws (snd p)) (each (trained f e) l).
Proof. intros H Hf. apply (each_frozen P); [exact H|]. intros i w a Ha. unfold trained. apply post_any. intros x. eapply post_bind; [apply Hf; exact Ha|]. intros a' Ha'. exact Ha'. Qed.
Lemma body_train_frozen ws b e : frozenB ws b -> post (frozenB ws) (body_train o b e).
Proof.
  intros [ns H|ns H|ns H|k f ns H]; cbn [body_train].
  - eapply post_bind; [apply (trained_frozen frozenN); [exact H|]; intros; now apply simple_train_frozen|]. intros (q & l) Hl. now constructor.
  - eapply post_bind; [apply (trained_frozen frozenR); [exact H|]; intros; now apply rec_train_frozen|]. intros (q & l) Hl. now constructor.
  - eapply post_bind; [apply (trained_frozen frozenG); [exact H|]; intros; now apply gru_train_frozen|]. intros (q & l) Hl. now constructor.
  - destruct k; try (eapply post_bind; [apply (trained_frozen frozenN); [exact H|]; intros; now apply simple_train_frozen|]; intros (q & l) Hl; now constructor); now constructor.
Qed.
(* layers and networks *)
Definition frozenL ws (l : Layer) : Prop := frozenB ws (l_body l).
Lemma layer_output_frozen ws l x t : frozenL ws l -> post (fun p => frozenL ws (snd p)) (layer_output l x t).
Proof. intros H. unfold layer_output. eapply post_bind; [apply body_output_frozen; exact H|]. intros (q & b) Hb. apply post_any. intros u. exact Hb. Qed.
Lemma layer_training_frozen ws r l x t : frozenL ws l -> post (fun p => frozenL ws (snd p)) (layer_outputForTraining r l x t).
Proof. intros H. unfold layer_outputForTraining. eapply post_bind; [apply body_output_frozen; exact H|]. intros (q & b) Hb. apply post_any. intros (u & v). exact Hb. Qed.
Lemma layer_back_frozen ws l e : frozenL ws l -> post (fun p => frozenL ws (snd p)) (layer_backOutput o l e).
Proof. intros H. unfold layer_backOutput. cbv zeta. eapply post_bind; [apply body_back_frozen; exact H|]. intros (q & b) Hb. exact Hb. Qed.
Lemma layer_train_frozen ws l e : frozenL ws l -> post (frozenL ws) (layer_train o l e).
Proof. intros H. unfold layer_train. cbv zeta. eapply post_bind; [apply body_train_frozen; exact H|]. intros b Hb. exact Hb. Qed.
Lemma chain_frozen f wss ls : (forall i ws l x, frozenL ws l -> post (fun p => frozenL ws (snd p)) (f i l x)) -> Forall2 frozenL wss ls -> forall i x, post (fun p => Forall2 frozenL wss (snd p)) (chain f i ls x).
Proof.
  intros Hf H. induction H as [|ws l wss ls Hl H IH]; intros i x; cbn [chain].
  - constructor.
  - eapply post_bind; [apply Hf; exact Hl|]. intros (q & l') Hl'. eapply post_bind; [apply IH|]. intros (q' & ls') Hls. cbn in *. now constructor.
Qed.
Lemma chain_outputs_frozen wss ls : Forall2 frozenL wss ls -> forall x, post (fun p => Forall2 frozenL wss (snd p)) (chain_outputs ls x).
Proof.
  intros H. induction H as [|ws l wss ls Hl H IH]; intros x; cbn [chain_outputs].
  - constructor.
  - eapply post_bind; [apply layer_output_frozen; exact Hl|]. intros (q & l') Hl'. eapply post_bind; [apply IH|]. intros (q' & ls') Hls. cbn in *. now constructor.
Qed.
Lemma chain_back_frozen wss ls : Forall2 frozenL wss ls -> forall e, post (fun p => Forall2 frozenL wss (snd p)) (chain_back o ls e).
Proof.
  intros H. induction H as [|ws l wss ls Hl H IH]; intros e; cbn [chain_back].
  - constructor.
  - eapply post_bind; [apply IH|]. intros (q' & ls') Hls. eapply post_bind; [apply layer_back_frozen; exact Hl|]. intros (q & l') Hl'. cbn in *. now constructor.
Qed.
Definition frozenNet wss (n : Net) : Prop := Forall2 frozenL wss (nn_layers n) /\ nn_opt n = o.
Lemma net_output_frozen wss n x t : frozenNet wss n -> post (fun p => frozenNet wss (snd p)) (net_output n x t).
Proof.
  intros (H & E). unfold net_output. destruct (nn_layers n) as [|l ls]; [exact I|]. eapply post_bind; [apply chain_frozen; [|exact H]; intros; now apply layer_output_frozen|].
  intros (q & ls') Hls. now split.
Qed.
Lemma net_training_frozen wss r n x t : frozenNet wss n -> post (fun p => frozenNet wss (snd p)) (net_outputForTraining r n x t).
Proof.
  intros (H & E). unfold net_outputForTraining. destruct (nn_layers n) as [|l ls]; [exact I|]. eapply post_bind; [apply chain_frozen; [|exact H]; intros; now apply layer_training_frozen|].
  intros (q & ls') Hls. now split.
Qed.
Lemma inspect_frozen wss n x : frozenNet wss n -> post (fun p => frozenNet wss (snd p)) (getLayerOutputs n x).
Proof.
  intros (H & E). unfold getLayerOutputs. destruct (nn_layers n) as [|l ls]; [exact I|]. eapply post_bind; [apply chain_outputs_frozen; exact H|]. intros (q & ls') Hls. now split.
Qed.
Lemma trainOnce_frozen wss r n x d t : frozenNet wss n -> post (frozenNet wss) (trainOnce r n x d t).
Proof.
  intros H. unfold trainOnce, backpropagation. eapply (post_bind (frozenNet wss)); [|intros n' Hn'; exact Hn'].
  eapply post_bind; [apply net_training_frozen; exact H|]. intros (out & n1) (H1 & E1). cbn [snd] in *. apply post_if; [now split|].
  destruct H1 as [|ws l wss' ls Hl Hls]; [exact I|]. apply post_any. intros errs. rewrite E1. eapply post_bind; [apply chain_back_frozen; exact Hls|]. intros (e & ls') Hls'.
  eapply post_bind; [apply layer_train_frozen; exact Hl|]. intros l' Hl'. split; [|reflexivity]. cbn in *. now constructor.
Qed.
Lemma perform_all_frozen wss cs : forall n, frozenNet wss n -> post (fun p => frozenNet wss (snd p)) (perform_all n cs).
Proof.
  induction cs as [|c cs IH]; intros n H; cbn [perform_all]; [exact H|]. eapply (post_bind (fun p => frozenNet wss (snd p))).
  - destruct c; cbn [perform].
    + eapply post_bind; [apply trainOnce_frozen; exact H|]. intros n' Hn'. exact Hn'.
    + eapply post_bind; [apply net_output_frozen; exact H|]. intros (q & n') Hn'. exact Hn'.
    + eapply post_bind; [apply inspect_frozen; exact H|]. intros (q & n') Hn'. exact Hn'.
  - intros (a & n') Hn'. eapply post_bind; [apply IH; exact Hn'|]. intros (r & n'') Hn''. exact Hn''.
Qed.
(* what is kept *)
Lemma frozenG_w w0 g : frozenG w0 g -> gru_weights g = w0.
Proof. intros (w1 & w2 & w3 & -> & (E1 & _) & (E2 & _) & (E3 & _)). unfold gru_weights. congruence. Qed.
Lemma frozenB_w ws b : frozenB ws b -> Forall2 spared ws (body_weights b).
Proof.
  intros [ns H|ns H|ns H|k f ns H]; cbn [body_weights]; induction H as [|w n ws l Hn _ IH]; cbn [map]; constructor; auto; try apply Hn.
  - left. apply Hn.
  - left. now apply frozenG_w.
Qed.
Lemma frozen_weights wss n : frozenNet wss n -> Forall2 (Forall2 spared) wss (net_weights n).
Proof. intros (H & _). unfold net_weights. induction H as [|ws l wss ls Hl _ IH]; cbn [map]; constructor; auto. now apply frozenB_w. Qed.
End Rate0.
(* the networks built *)
Lemma F2_map_self {A B} (P : B -> A -> Prop) (f : A -> B) l : Forall (fun a => P (f a) a) l -> Forall2 P (map f l) l.
Proof. induction 1; cbn; constructor; auto. Qed.
Lemma repeat_zeros n v : zeros v -> Forall zeros (repeat v n).
Proof. intros H. induction n; cbn; constructor; auto. Qed.
Lemma circ_cleared b n : cleared (circ_init b n).
Proof. apply repeat_zeros. apply Forall_forall. intros x Hx. apply repeat_spec in Hx. subst x. change (0 = 0 / 1)%R. lra. Qed.
Lemma neuron_frozen ni bs b a dr : post (fun n => frozenN (n_w n) n) (neuron_init ni bs (ni + 1) b a dr).
Proof.
  rewrite Nat.add_1_r. cbn [neuron_init post]. split; [|split; [now left|apply circ_cleared]]. cbn [n_w n_in]. rewrite app_length, map_length, seq_length. cbn. lia.
Qed.
Lemma rneuron_frozen ni bs nw b a dr : post (fun r => frozenR (n_w (r_n r)) r) (rneuron_init ni bs nw b a dr).
Proof.
  unfold rneuron_init. eapply (post_bind (fun n => cleared (n_prev n))); [destruct nw; cbn; [exact I|apply (circ_cleared bs (S nw))]|]. intros n Hn. cbn. now split.
Qed.
Lemma gru_frozen ni bs nw b dr : post (fun g => frozenG (gru_weights g) g) (gru_init ni bs nw b dr).
Proof.
  unfold gru_init. eapply post_bind; [apply rneuron_frozen|]. intros x Hx. eapply post_bind; [apply rneuron_frozen|]. intros y Hy. eapply post_bind; [apply rneuron_frozen|]. intros z Hz. cbn.
  eexists _, _, _. split; [reflexivity|]. auto.
Qed.
Lemma built_frozen {A} (P : list (@F RNum) -> A -> Prop) f mk n : (forall i, post (fun a => P (f a) a) (mk i)) -> post (fun ns => Forall2 P (map f ns) ns) (build_neurons mk n).
Proof. intros H. unfold build_neurons. eapply post_imp; [|apply (post_omap (fun a => P (f a) a) mk (seq 0 n) H)]. intros ns. apply F2_map_self. Qed.
Lemma filters_frozen draws d a b e : post (fun ns => Forall2 frozenN (map n_w ns) ns) (filter_neurons draws d a b e).
Proof. unfold filter_neurons. do 3 (apply post_any; intro). apply built_frozen. intros i. apply neuron_frozen. Qed.
Definition asBuilt (l : Layer) : Prop := frozenL (layer_weights l) l.
Lemma asBuilt_finish masks nin d b : frozenB (body_weights b) b -> post asBuilt (Ok (finish masks nin d b)).
Proof. intros H. exact H. Qed.
Ltac zr := repeat first [apply asBuilt_finish; constructor; solve [assumption|constructor] | apply post_if | eapply post_bind; [apply filters_frozen|intros ? ?] | apply post_any; intro | exact I].
Lemma build_layer_frozen draws masks d shape : post asBuilt (build_layer draws masks d shape).
Proof.
  unfold build_layer. apply post_any. intros inputs. destruct shape as [|z t]; [exact I|]. apply post_if; [exact I|]. destruct (d_type d); try exact I.
  - apply post_if; [exact I|]. do 2 (apply post_any; intro). eapply post_bind; [apply (built_frozen frozenN); intros i; apply neuron_frozen|]. intros ns H. apply asBuilt_finish. now constructor.
  - do 2 (apply post_any; intro). eapply post_bind; [apply (built_frozen frozenR (fun r => n_w (r_n r))); intros i; apply rneuron_frozen|]. intros ns H. apply asBuilt_finish. now constructor.
  - do 2 (apply post_any; intro). eapply post_bind; [apply (built_frozen frozenG); intros i; apply gru_frozen|]. intros ns H. apply asBuilt_finish. now constructor.
  - apply post_dims; intros; unfold build_pool1D, build_pool2D; zr.
  - apply post_dims; intros; unfold build_loc1D, build_loc2D; zr.
  - apply post_dims; intros; unfold build_conv1D, build_conv2D; zr.
Qed.
Lemma build_rest_frozen draws masks ds : forall i shape, post (fun ls => Forall2 frozenL (map layer_weights ls) ls) (build_rest draws masks i ds shape).
Proof.
  induction ds as [|d ds IH]; intros i shape; cbn [build_rest]; [constructor|]. eapply post_bind; [apply build_layer_frozen|]. intros l Hl. eapply post_bind; [apply IH|]. intros ls Hls. cbn. now constructor.
Qed.
(* the network without the multiplier and with the rate 0 *)
Section Same.
Variables o o' : @SGD RNum.
Hypothesis Hlr : o_lr o = (0 * o_lr o')%R.
Hypothesis Hm : o_m o' = o_m o.
Variables L k : nat.
Notation zrel := (nrel 0%R o o' L k).
Lemma perform_same n n' q : zrel n n' -> orel (with_out zrel) (perform n q) (perform n' q).
Proof.
  intros H. destruct q as [r x d t|x t|x]; cbn [perform].
  - eapply orel_bind; [apply (trainOnce_sc 0%R o o' Hlr Hm L k r r); auto|]. intros a b Hab. now split.
  - eapply orel_bind; [apply net_output_sc; eassumption|]. intros (q1 & k1) (q2 & k2) (E & Hk). cbn in E, Hk. subst q2. now split.
  - eapply orel_bind; [apply inspect_sc; eassumption|]. intros (q1 & k1) (q2 & k2) (E & Hk). cbn in E, Hk. subst q2. now split.
Qed.
Lemma perform_all_same cs : forall n n', zrel n n' -> orel (with_out zrel) (perform_all n cs) (perform_all n' cs).
Proof.
  induction cs as [|q cs IH]; intros n n' H; cbn [perform_all]; [now split|]. eapply orel_bind; [apply perform_same; eassumption|].
  intros (q1 & k1) (q2 & k2) (E & Hk). cbn in E, Hk. subst q2. eapply orel_bind; [apply IH; exact Hk|]. intros (q3 & k3) (q4 & k4) (E & Hk'). cbn in E, Hk'. subst q4. now split.
Qed.
End Same.
Lemma multiplied_by_zero draws masks d0 ds dl l m n : Forall no_regularization ds ->
  construct draws masks (d0 :: ds ++ [with_last_option (d_mult 0%R) dl]) l m = Ok n ->
  forall cs a n2, perform_all n cs = Ok (a, n2) -> Forall2 (Forall2 unlearned) (net_weights n) (net_weights n2).
Proof.
  intros Hr E cs a n2 Hp. pose proof (construct_inv _ _ _ _ _ _ E) as (a0 & rest & X & Ht & Hb & _ & _ & En). injection X as <- <-.
  pose proof (build_rest_csc 0%R draws masks masks dl (List.length ds) (fun _ _ _ _ => eq_refl) (fun _ _ _ => eq_refl) ds 0 (d_shape d0) eq_refl) as X.
  rewrite (regularized_all 0%R ds Hr), Hb in X. pose proof (build_rest_frozen draws masks (ds ++ [dl]) 0 (d_shape d0)) as Z.
  destruct (build_rest draws masks 0 (ds ++ [dl]) (d_shape d0)) as [ls|e|]; cbn [orel post] in X, Z; try contradiction.
  assert (Hlr : o_lr (@mkSGD RNum 0%R m) = (0 * o_lr (@mkSGD RNum l m))%R) by (symmetry; apply Rmult_0_l).
  assert (N0 : nrel 0%R (@mkSGD RNum 0%R m) (@mkSGD RNum l m) (List.length ds) (List.length (d_opts dl)) (mkNet ls (@mkSGD RNum 0%R m) false 0) n).
  { rewrite En. split; [exact X|]. cbn. auto. }
  pose proof (perform_all_same _ _ Hlr eq_refl _ _ cs _ _ N0) as Y. rewrite Hp in Y.
  assert (Z0 : frozenNet (@mkSGD RNum 0%R m) (map layer_weights ls) (mkNet ls (@mkSGD RNum 0%R m) false 0)) by (split; [exact Z|reflexivity]).
  pose proof (perform_all_frozen (@mkSGD RNum 0%R m) eq_refl _ cs _ Z0) as W.
  match goal with H : orel _ ?p _ |- _ => destruct p as [(a1 & n1)|e|] end; cbn [orel post] in Y, W; try contradiction. destruct Y as (_ & Y). cbn [snd] in Y, W.
  apply frozen_weights in W. destruct Y as (Y & _). apply csc_weights in Y. apply csc_weights in X. unfold net_weights in *. rewrite Y, X.
  assert (S0 : forall w w' : list (@F RNum), spared w w' -> unlearned w w').
  { intros w w' [H|H]; [now left|right]. assert (E0 : (0%R : @F RNum) = fofZ 0) by (change (0 = 0 / 1)%R; lra). rewrite <- E0. exact H. }
  revert W. generalize (map layer_weights ls) (map layer_weights (nn_layers n1)). clear - S0. intros u v W. induction W as [|x y u v Hxy _ IH]; constructor; auto. clear - S0 Hxy. induction Hxy; constructor; auto.
Qed.
