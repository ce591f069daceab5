(* The model's training step on dense networks, connected to the gradient. *)
From Coq Require Import Reals Lra.
From Coquelicot Require Import Coquelicot.
From Verif Require Import Base Num NumOrder ActModel ActProofs NeuronModel LayerModel NetModel NetSpec NeuronProofs LayerProofs GradProofs.
Local Open Scope R_scope.
Notation RNeu := (@Neuron RNum).
Notation RLay := (@Layer RNum).

Fixpoint dchain (k : nat) (ls : list RLay) (nss : list (list RNeu)) : Prop :=
  match ls, nss with
  | [], [] => True
  | l :: lt, ns :: nt => l = mkLayer k (BFull ns) [] /\ Forall (fun n => wf_neuron 1 n /\ n_in n = k /\ n_batch n = 1%nat) ns
                         /\ dchain (List.length ns) lt nt
  | _, _ => False
  end.
Lemma dense_dchain k (ls : list RLay) : dense_layers k ls -> exists nss, dchain k ls nss.
Proof.
  revert k; induction ls as [|l t IH]; intros k H; cbn in H.
  - exists []. exact I.
  - destruct H as (Hi & Ho & (ns & Hb & Hn) & Ht). apply IH in Ht as (nt & Ht). exists (ns :: nt). cbn.
    split. { destruct l; cbn in *; subst; reflexivity. } split; [exact Hn|].
    unfold getNumberOfNeurons, layer_weights in Ht. rewrite Hb in Ht. cbn in Ht. rewrite map_length in Ht. exact Ht.
Qed.
Lemma dchain_dense k ls nss : dchain k ls nss -> dense_layers k ls.
Proof.
  revert k nss; induction ls as [|l t IH]; intros k [|ns nt] H; cbn in *; auto; try contradiction.
  destruct H as (-> & Hn & Ht). cbn. repeat split; auto. { exists ns. auto. }
  unfold getNumberOfNeurons, layer_weights; cbn. rewrite map_length. eauto.
Qed.
Lemma dchain_shaped k ls nss : dchain k ls nss -> shaped k nss.
Proof.
  revert k nss; induction ls as [|l t IH]; intros k [|ns nt] H; cbn in *; auto; try contradiction.
  destruct H as (_ & Hn & Ht). split; eauto. eapply Forall_impl; [|exact Hn]. cbn. intros a (A & B & _); auto.
Qed.

(* ---------- forward ---------- *)
Definition fed (z : list R) (n : RNeu) : RNeu := @set_sum RNum n (@neuron_sum RNum n z) (@mkCirc RNum [z] 1 (q_get (n_last n))).
Fixpoint fed_nss (nss : list (list RNeu)) (z : list R) : list (list RNeu) :=
  match nss with [] => [] | ns :: t => map (fed z) ns :: fed_nss t (layer_val ns z) end.

Lemma simple_output_fed (n : RNeu) x : wf_neuron 1 n -> n_batch n = 1%nat -> List.length x = n_in n ->
  @simple_output RNum n x = Ok (@neuron_value RNum n x, fed x n).
Proof.
  intros H Hb Hx. destruct (simple_output_ok n x H Hx) as (n' & E & _). rewrite E.
  apply simple_output_inv in E as (_ & last & Hp & ->). destruct H as (_ & _ & Hl & _). rewrite Hb in Hl.
  rewrite (pushBack_1 _ _ x Hl) in Hp. injection Hp as <-. reflexivity.
Qed.
Lemma fed_wf x n : wf_neuron 1 n -> n_batch n = 1%nat -> List.length x = n_in n -> wf_neuron 1 (fed x n).
Proof.
  intros H Hb Hx. destruct (simple_output_ok n x H Hx) as (n' & E & W).
  rewrite simple_output_fed in E by auto. injection E as <-. exact W.
Qed.

Lemma body_full_fed k (ns : list RNeu) x reset : Forall (fun n => wf_neuron 1 n /\ n_in n = k /\ n_batch n = 1%nat) ns -> List.length x = k ->
  @body_output RNum (BFull ns) x reset = Ok (layer_val ns x, BFull (map (fed x) ns)).
Proof.
  intros H Hx. cbn [body_output]. unfold layer_val. erewrite each_map_plain with (h := fed x); [reflexivity|].
  intros j a Ha. apply nth_error_In in Ha. rewrite Forall_forall in H. destruct (H a Ha) as (W & Hi & Hb).
  apply simple_output_fed; auto. etransitivity; [exact Hx|symmetry; exact Hi].
Qed.

Lemma fed_forall k ns x : Forall (fun n => wf_neuron 1 n /\ n_in n = k /\ n_batch n = 1%nat) ns -> List.length x = k ->
  Forall (fun n => wf_neuron 1 n /\ n_in n = k /\ n_batch n = 1%nat) (map (fed x) ns).
Proof.
  intros H Hx. rewrite Forall_forall in *. intros n Hn. apply in_map_iff in Hn as (n1 & <- & Hn). destruct (H n1 Hn) as (W & Hi & Hb).
  split; [apply fed_wf; auto; etransitivity; [exact Hx|symmetry; exact Hi]|]. cbn. auto.
Qed.

Lemma chain_dense (f : nat -> RLay -> list R -> outcome (list R * RLay)) nss :
  (forall i k ns v, f i (mkLayer k (BFull ns) []) v = bind (@body_output RNum (BFull ns) v false) (fun r => Ok (fst r, mkLayer k (snd r) []))
                    \/ f i (mkLayer k (BFull ns) []) v = bind (@body_output RNum (BFull ns) v true) (fun r => Ok (fst r, mkLayer k (snd r) []))) ->
  forall k ls i x, dchain k ls nss -> List.length x = k ->
  exists ls', @chain RNum f i ls x = Ok (net_val nss x, ls') /\ dchain k ls' (fed_nss nss x).
Proof.
  intros Hf. induction nss as [|ns nt IH]; intros k ls i x H Hx; destruct ls as [|l lt]; cbn in H; try contradiction.
  - exists []. split; [reflexivity|exact I].
  - destruct H as (-> & Hn & Ht). cbn [chain].
    assert (E : f i (mkLayer k (BFull ns) []) x = Ok (layer_val ns x, mkLayer k (BFull (map (fed x) ns)) [])).
    { destruct (Hf i k ns x) as [E|E]; rewrite E, (body_full_fed k) by auto; reflexivity. }
    rewrite E. cbn [bind].
    destruct (IH _ lt (S i) (layer_val ns x) Ht) as (lt' & E' & D'); [apply layer_val_length|].
    rewrite E'. cbn [bind]. eexists. split; [reflexivity|]. cbn. split; [reflexivity|]. split; [now apply fed_forall|].
    now rewrite map_length.
Qed.
Lemma chain_test_ok reset : forall i k ns v, (fun (_ : nat) l v => @layer_output RNum l v reset) i (mkLayer k (BFull ns) []) v = bind (@body_output RNum (BFull ns) v false) (fun r => Ok (fst r, mkLayer k (snd r) []))
                    \/ (fun (_ : nat) l v => @layer_output RNum l v reset) i (mkLayer k (BFull ns) []) v = bind (@body_output RNum (BFull ns) v true) (fun r => Ok (fst r, mkLayer k (snd r) [])).
Proof.
  intros i k ns v. destruct reset; [right|left]; unfold layer_output; cbn [l_body l_opts l_in];
    destruct (body_output (BFull ns) v _) as [[o b]| |]; reflexivity.
Qed.
Lemma chain_train_ok rand reset : forall i k ns v, (fun (i : nat) l v => @layer_outputForTraining RNum (rand i) l v reset) i (mkLayer k (BFull ns) []) v = bind (@body_output RNum (BFull ns) v false) (fun r => Ok (fst r, mkLayer k (snd r) []))
                    \/ (fun (i : nat) l v => @layer_outputForTraining RNum (rand i) l v reset) i (mkLayer k (BFull ns) []) v = bind (@body_output RNum (BFull ns) v true) (fun r => Ok (fst r, mkLayer k (snd r) [])).
Proof.
  intros i k ns v. destruct reset; [right|left]; unfold layer_outputForTraining; cbn [l_body l_opts l_in];
    destruct (body_output (BFull ns) v _) as [[o b]| |]; reflexivity.
Qed.
Lemma anyAbnormal_R v : @anyAbnormal RNum v = false.
Proof. induction v; cbn; auto. Qed.

(* ---------- backward ---------- *)
Definition prow (n : RNeu) : list R := nth 0 (q_data (n_prev n)) [].
(* what a step with error [e] (after the activation's derivative) does to a neuron that was fed z *)
Definition upd (o : @SGD RNum) (e : R) (z : list R) (n n' : RNeu) : Prop :=
  n_in n' = n_in n /\ n_batch n' = n_batch n /\ n_act n' = n_act n /\ n_bias n' = n_bias n /\
  (forall w, (w < n_in n)%nat -> @nth R w (n_w n') 0 = nth w (n_w n) 0 + (o_lr o * e * nth w z 0 + o_m o * nth w (prow n) 0)) /\
  @nth R (n_in n) (n_w n') 0 = o_lr o * e * n_bias n + o_m o * nth (n_in n) (prow n) 0 /\
  (forall w, (w < n_in n)%nat -> @nth R w (prow n') 0 = nth w (n_w n') 0 - nth w (n_w n) 0) /\
  @nth R (n_in n) (prow n') 0 = nth (n_in n) (n_w n') 0.
Lemma RNum_one : @fofnat RNum 1 = 1. Proof. unfold fofnat, fofZ. cbn. lra. Qed.
Lemma upd_sgd o e z (n n' : RNeu) errs : wf_neuron 1 n -> n_batch n = 1%nat ->
  @sgd_simple RNum o (@set_err RNum (fed z n) errs) e = Ok n' -> upd o e z n n'.
Proof.
  intros W Hb E. apply sgd_simple_inv in E as (xs & last & ps & prev & prev' & ds & G1 & G2 & G3 & En & _ & _ & _ & _ & _ & Hd & Hdb & _ & Hw & Hwb & _).
  cbn [fed set_err set_sum n_last n_prev n_in n_w] in *.
  destruct W as (_ & Hp & _ & _). rewrite Hb in Hp. destruct (getBack_1 _ _ Hp) as (row & Hr & G2'). rewrite G2' in G2. injection G2 as <- <-.
  assert (Hp' : prow n' = ds).
  { unfold pushBack in G3. cbn in G3. rewrite En. unfold prow. cbn [set_wpl n_prev].
    destruct (q_push (n_prev n)) as [|g]; cbn in G3; injection G3 as <-; reflexivity. }
  unfold getBack in G1. cbn in G1. assert (xs = z) as ->.
  { destruct (q_get (n_last n)) as [|g]; cbn in G1; injection G1 as <- _; reflexivity. }
  assert (Hrow : prow n = row) by (unfold prow; rewrite Hr; reflexivity).
  unfold upd. rewrite Hp'. rewrite En. cbn [set_wpl n_in n_batch n_act n_bias n_w fed set_err set_sum].
  rewrite fzero_R in *.
  repeat split; auto.
  - intros w Hlt. etransitivity; [apply Hw; auto|]. rewrite Hd by auto. unfold delta_in, lr_of. cbn [n_batch set_err set_sum].
    cbn [fed set_sum n_batch set_err]. rewrite Hb, RNum_one, Hrow. cbn [fadd fmul fdiv RNum]. change (@F RNum) with R in *. unfold Rdiv. rewrite Rinv_1. ring.
  - etransitivity; [apply Hwb|]. rewrite Hdb. unfold delta_bias, lr_of. cbn [n_batch set_err set_sum].
    cbn [fed set_sum n_batch set_err n_bias]. rewrite Hb, RNum_one, Hrow. cbn [fadd fmul fdiv RNum]. change (@F RNum) with R in *. unfold Rdiv. rewrite Rinv_1. ring.
  - intros w Hlt. specialize (Hw w Hlt). cbn [fadd RNum] in Hw. change (@F RNum) with R in *. rewrite Hw. ring.
Qed.
Lemma set_err_self (n : RNeu) : set_err n (n_err n) = n. Proof. destruct n; reflexivity. Qed.

(* all neurons of a layer made a step *)
Definition upd_layer (o : @SGD RNum) (e : list R) (z : list R) (ns ns' : list RNeu) : Prop :=
  List.length ns' = List.length ns /\ forall n, (n < List.length ns)%nat -> upd o (nerr e n (nth n ns n0) z) z (nth n ns n0) (nth n ns' n0).
Fixpoint upd_net (o : @SGD RNum) (d : list R) (nss : list (list RNeu)) (z : list R) (nss' : list (list RNeu)) : Prop :=
  match nss, nss' with
  | [], [] => True
  | ns :: t, ns' :: t' => upd_layer o (back_err t (layer_val ns z) d) z ns ns' /\ upd_net o d t (layer_val ns z) t'
  | _, _ => False
  end.

Lemma sgd_keeps o (n n' : RNeu) e : @sgd_simple RNum o n e = Ok n' -> n_in n' = n_in n /\ n_batch n' = n_batch n.
Proof. intros E. apply sgd_simple_inv in E as (? & ? & ? & ? & ? & ? & _ & _ & _ & -> & _). auto. Qed.

Lemma firstn_S_nth {A} (l : list A) m d : (m < List.length l)%nat -> firstn (S m) l = firstn m l ++ [nth m l d].
Proof.
  revert m; induction l as [|x t IH]; intros [|m] H; cbn [List.length] in H; try lia; [reflexivity|].
  cbn [firstn nth app]. f_equal. apply IH. lia.
Qed.
(* one layer backwards *)
Lemma full_back o k (ns : list RNeu) (z e : list R) :
  Forall (fun n => wf_neuron 1 n /\ n_in n = k /\ n_batch n = 1%nat) ns -> List.length z = k -> List.length e = List.length ns ->
  exists ns', @body_back RNum o k (BFull (map (fed z) ns)) e =
    Ok (map (fun i => sumn (List.length ns) (fun n => nerr e n (nth n ns n0) z * nth i (n_w (nth n ns n0)) 0)) (seq 0 k), BFull ns') /\
    upd_layer o e z ns ns' /\ Forall (fun n => wf_neuron 1 n /\ n_in n = k /\ n_batch n = 1%nat) ns'.
Proof.
  intros H Hz He. cbn [body_back].
  set (f := fun (n : nat) neuron => bind (@lget R e n) (fun e0 => @simple_backOutput RNum o neuron e0)).
  assert (Hf : forall j a, nth_error (map (fed z) ns) j = Some a -> exists n', f j a =
     Ok (map (fun w => @fmul RNum (@fmul RNum (nth j e 0) (@actd RNum (n_act a) (n_sum a))) w) (firstn k (n_w a)), n')
       /\ wf_neuron 1 n' /\ n_in n' = k).
  { intros j a Ha. rewrite nth_error_map in Ha. destruct (nth_error ns j) as [nj|] eqn:Ej; [|discriminate]. injection Ha as <-.
    assert (Hj : (j < List.length ns)%nat) by (apply nth_error_Some; congruence).
    rewrite Forall_forall in H. destruct (H nj (nth_error_In _ _ Ej)) as (W & Hi & Hb).
    unfold f. cbv beta. rewrite (lget_nth e j 0) by lia. cbn [bind].
    assert (Hl : List.length z = n_in nj) by (etransitivity; [exact Hz|symmetry; exact Hi]).
    destruct (simple_backOutput_ok o (fed z nj) (nth j e 0) (fed_wf z nj W Hb Hl)) as (n' & E & W' & Hi').
    exists n'. cbn [fed set_sum n_in] in Hi', E. rewrite Hi in Hi', E. split; [exact E|]. split; auto. }
  destruct (each_ok f (map (fed z) ns)) as (es & ns' & E).
  { intros j a Ha. destruct (Hf j a Ha) as (n' & E & _). eauto. }
  match goal with |- context [each ?g (map (fed z) ns)] => change (each g (map (fed z) ns)) with (each f (map (fed z) ns)) end.
  rewrite E. cbn [bind]. apply each_inv in E as (L1 & L2 & Hj). rewrite map_length in L1, L2.
  (* the error rows *)
  assert (Hes : forall n, (n < List.length ns)%nat -> nth n es [] = map (fun w => nerr e n (nth n ns n0) z * w) (firstn k (n_w (nth n ns n0)))).
  { intros n Hn. assert (Ha : nth_error (map (fed z) ns) n = Some (fed z (nth n ns n0))).
    { rewrite nth_error_map, (nth_error_nth' ns n0) by auto. reflexivity. }
    destruct (Hj n _ Ha) as (b & a' & Eb & _ & Efb). destruct (Hf n _ Ha) as (n' & E & _). rewrite E in Efb. injection Efb as <- _.
    rewrite (nth_error_nth _ _ _ Eb). reflexivity. }
  assert (Hns' : forall n, (n < List.length ns)%nat -> exists n', nth_error ns' n = Some n' /\ upd o (nerr e n (nth n ns n0) z) z (nth n ns n0) n' /\ wf_neuron 1 n' /\ n_in n' = k /\ n_batch n' = 1%nat).
  { intros n Hn. assert (Ha : nth_error (map (fed z) ns) n = Some (fed z (nth n ns n0))).
    { rewrite nth_error_map, (nth_error_nth' ns n0) by auto. reflexivity. }
    destruct (Hj n _ Ha) as (b & a' & _ & Ea & Efb). destruct (Hf n _ Ha) as (n' & E & W' & Hi'). pose proof E as E1. rewrite E in Efb. injection Efb as _ <-.
    rewrite Forall_forall in H. destruct (H (nth n ns n0)) as (W & Hi & Hb); [apply nth_In; auto|].
    exists n'. unfold f in E1. cbv beta in E1. rewrite (lget_nth e n 0) in E1 by lia. cbn [bind] in E1. unfold simple_backOutput in E1.
    apply bind_Ok_inv in E1 as (errs & _ & E1). apply bind_Ok_inv in E1 as (n'' & Es & E1). injection E1 as _ ->.
    pose proof (sgd_keeps _ _ _ _ Es) as [_ Hb']. apply upd_sgd in Es; auto.
    split; [exact Ea|]. split; [exact Es|]. cbn in Hb'. repeat split; auto; try apply W'; lia. }
  (* summing the rows *)
  assert (Hsum : forall m, (m <= List.length ns)%nat ->
     ofold (@addErrors RNum) (firstn m es) (repeat (@fzero RNum) k) = Ok (map (fun i => sumn m (fun n => nerr e n (nth n ns n0) z * nth i (n_w (nth n ns n0)) 0)) (seq 0 k))).
  { intros m. induction m as [|m IH]; intros Hm.
    - cbn [firstn ofold sumn]. f_equal. rewrite fzero_R. apply nth_error_ext. intros i. destruct (Nat.ltb_spec i k).
      + rewrite (nth_error_nth' (repeat 0 k) 0) by (rewrite repeat_length; auto). rewrite nth_error_map.
        rewrite (nth_error_nth' (seq 0 k) O) by (rewrite seq_length; auto). cbn. f_equal. apply nth_repeat.
      + rewrite (proj2 (nth_error_None _ _)), (proj2 (nth_error_None _ _)); auto; rewrite ?map_length, ?repeat_length, ?seq_length; auto.
    - assert (Hfs : firstn (S m) es = firstn m es ++ [nth m es []]).
      { apply firstn_S_nth. lia. }
      rewrite Hfs, ofold_app, IH by lia. cbn [bind ofold].
      rewrite Hes by lia. unfold addErrors. rewrite map_length, seq_length.
      rewrite Forall_forall in H. destruct (H (nth m ns n0)) as (W & Hi & Hb); [apply nth_In; lia|]. pose proof W as (HL & _).
      rewrite (omap_seq_ok _ (fun i => sumn (S m) (fun n => nerr e n (nth n ns n0) z * nth i (n_w (nth n ns n0)) 0))); [reflexivity|].
      intros i Hik. rewrite (lget_nth _ i 0) by (rewrite map_length, seq_length; auto). cbn [bind]. rewrite nth_map_seq by auto.
      change (@F RNum) with R in *. rewrite (lget_nth _ i 0) by (rewrite map_length, firstn_length; lia). cbn [bind sumn].
      rewrite (nth_map_in (fun w => nerr e m (nth m ns n0) z * w) _ i 0 0) by (rewrite firstn_length; lia). rewrite nth_firstn_lt by auto. reflexivity. }
  specialize (Hsum (List.length ns) (le_n _)). rewrite firstn_all2 in Hsum by lia.
  change (@F RNum) with R in *. rewrite Hsum. cbn [bind]. exists ns'. split; [reflexivity|]. split.
  - split; [exact L2|]. intros n Hn. destruct (Hns' n Hn) as (n' & En & U & _). rewrite (nth_error_nth _ _ n0 En). exact U.
  - apply Forall_forall. intros x Hx. apply In_nth_error in Hx as (i & Hi). assert (Hl : (i < List.length ns)%nat) by (rewrite <- L2; apply nth_error_Some; congruence).
    destruct (Hns' i Hl) as (n' & En & _ & W & A & B). assert (x = n') as -> by congruence. auto.
Qed.

Lemma full_train o k (ns : list RNeu) (z e : list R) :
  Forall (fun n => wf_neuron 1 n /\ n_in n = k /\ n_batch n = 1%nat) ns -> List.length z = k -> List.length e = List.length ns ->
  exists ns', @body_train RNum o (BFull (map (fed z) ns)) e = Ok (BFull ns') /\
    upd_layer o e z ns ns' /\ Forall (fun n => wf_neuron 1 n /\ n_in n = k /\ n_batch n = 1%nat) ns'.
Proof.
  intros H Hz He. cbn [body_train].
  set (f := @trained RNum RNeu (@simple_train RNum o) e).
  assert (Hf : forall j, (j < List.length ns)%nat -> exists n', f j (fed z (nth j ns n0)) = Ok (tt, n')
       /\ upd o (nerr e j (nth j ns n0) z) z (nth j ns n0) n' /\ wf_neuron 1 n' /\ n_in n' = k /\ n_batch n' = 1%nat).
  { intros j Hj. rewrite Forall_forall in H. destruct (H (nth j ns n0)) as (W & Hi & Hb); [apply nth_In; auto|].
    unfold f, trained. change (@F RNum) with R in *. rewrite (@lget_nth R e j 0) by lia. cbn [bind]. unfold simple_train.
    assert (Hl : List.length z = n_in (nth j ns n0)) by (etransitivity; [exact Hz|symmetry; exact Hi]).
    destruct (sgd_simple_ok o (fed z (nth j ns n0)) (@fmul RNum (nth j e 0) (@actd RNum (n_act (fed z (nth j ns n0))) (n_sum (fed z (nth j ns n0)))))
                (fed_wf z _ W Hb Hl)) as (n' & E & W').
    change (@F RNum) with R in *. rewrite E. cbn [bind]. exists n'. split; [reflexivity|].
    pose proof (sgd_keeps _ _ _ _ E) as [Hi' Hb']. cbn [fed set_sum n_in n_batch] in Hi', Hb'.
    split; [|repeat split; auto; try apply W'; congruence].
    rewrite <- (set_err_self (fed z (nth j ns n0))) in E. apply upd_sgd in E; auto. }
  assert (Hn : forall j a, nth_error (map (fed z) ns) j = Some a -> (j < List.length ns)%nat /\ a = fed z (nth j ns n0)).
  { intros j a Ha. rewrite nth_error_map in Ha. destruct (nth_error ns j) as [nj|] eqn:Ej; [|discriminate]. injection Ha as <-.
    split; [apply nth_error_Some; congruence|]. now rewrite (nth_error_nth _ _ n0 Ej). }
  destruct (each_ok f (map (fed z) ns)) as (es & ns' & E).
  { intros j a Ha. destruct (Hn j a Ha) as [Hj ->]. destruct (Hf j Hj) as (n' & E & _). eauto. }
  rewrite E. cbn [bind]. apply each_inv in E as (L1 & L2 & Hj). rewrite map_length in L1, L2.
  assert (Hns' : forall n, (n < List.length ns)%nat -> exists n', nth_error ns' n = Some n' /\ upd o (nerr e n (nth n ns n0) z) z (nth n ns n0) n' /\ wf_neuron 1 n' /\ n_in n' = k /\ n_batch n' = 1%nat).
  { intros n Hlt. assert (Ha : nth_error (map (fed z) ns) n = Some (fed z (nth n ns n0))).
    { rewrite nth_error_map, (nth_error_nth' ns n0) by auto. reflexivity. }
    destruct (Hj n _ Ha) as (b & a' & _ & Ea & Efb). destruct (Hf n Hlt) as (n' & E & U). rewrite E in Efb. injection Efb as _ <-. eauto. }
  exists ns'. split; [reflexivity|]. split.
  - split; [exact L2|]. intros n Hlt. destruct (Hns' n Hlt) as (n' & En & U & _). rewrite (nth_error_nth _ _ n0 En). exact U.
  - apply Forall_forall. intros x Hx. apply In_nth_error in Hx as (i & Hi). assert (Hl : (i < List.length ns)%nat) by (rewrite <- L2; apply nth_error_Some; congruence).
    destruct (Hns' i Hl) as (n' & En & _ & W & A & B). assert (x = n') as -> by congruence. auto.
Qed.

Lemma chain_back_dense o d nss : forall k ls z,
  dchain k ls nss -> List.length z = k -> forall ls0, dchain k ls0 (fed_nss nss z) ->
  exists ls' nss', @chain_back RNum o ls0 (back_err [] (net_val nss z) d) = Ok (back_err nss z d, ls') /\
    upd_net o d nss z nss' /\ dchain k ls' nss'.
Proof.
  induction nss as [|ns nt IH]; intros k ls z H Hz ls0 H0.
  - destruct ls0; [|contradiction]. exists [], []. split; [reflexivity|]. split; exact I.
  - destruct ls as [|l lt]; [contradiction|]. destruct ls0 as [|l0 lt0]; [contradiction|].
    cbn [dchain fed_nss] in H, H0. destruct H as (-> & Hn & Ht). destruct H0 as (-> & Hn0 & Ht0). rewrite map_length in Ht0.
    destruct (IH _ lt (layer_val ns z) Ht (layer_val_length _ _) lt0 Ht0) as (lt' & nt' & E & U & D).
    cbn [chain_back]. change (net_val (ns :: nt) z) with (net_val nt (layer_val ns z)). rewrite E. cbn [bind].
    unfold layer_backOutput. cbn [l_opts l_body l_in opts_back fold_left].
    destruct (full_back o k ns z (back_err nt (layer_val ns z) d) Hn Hz) as (ns' & E' & U' & F').
    { rewrite back_err_length. apply layer_val_length. }
    change (opts_back _ [] ?e) with e. rewrite E'. cbn [bind]. exists (mkLayer k (BFull ns') [] :: lt'), (ns' :: nt').
    split. { cbn [back_err]. rewrite Hz. reflexivity. } split; [split; auto|]. cbn [dchain]. repeat split; auto.
    destruct U' as [L _]. now rewrite L.
Qed.

Lemma last_irrel {A} (a : A) (l : list A) d d' : last (a :: l) d = last (a :: l) d'.
Proof. revert a; induction l as [|b t IH]; intros a; [reflexivity|]. apply (IH b). Qed.
(* the whole training step *)
Lemma last_neurons k (ls : list RLay) nss l : dchain k (l :: ls) nss -> forall x, List.length x = k ->
  List.length (net_val nss x) = getNumberOfNeurons (last (l :: ls) l).
Proof.
  revert k nss l; induction ls as [|l2 t IH]; intros k nss l H x Hx.
  - destruct nss as [|ns [|? ?]]; cbn in H; try contradiction; [|destruct H as (_ & _ & []) ]. destruct H as (-> & _ & _). cbn.
    unfold getNumberOfNeurons, layer_weights; cbn. now rewrite layer_val_length, map_length.
  - destruct nss as [|ns nt]; [contradiction|]. destruct H as (-> & _ & Ht).
    change (net_val (ns :: nt) x) with (net_val nt (layer_val ns x)).
    rewrite (IH _ _ _ Ht _ (layer_val_length _ _)). f_equal. cbn [last]. apply last_irrel.
Qed.

Lemma trainOnce_dense rand (net : @Net RNum) k nss x d reset :
  nn_layers net <> [] -> dchain k (nn_layers net) nss -> nn_nan net = false -> List.length x = k ->
  (List.length (net_val nss x) <= List.length d)%nat ->
  exists net' nss', @trainOnce RNum rand net x d reset = Ok net' /\ dchain k (nn_layers net') nss' /\ upd_net (nn_opt net) d nss x nss'
    /\ nn_nan net' = false /\ nn_opt net' = nn_opt net.
Proof.
  intros Hne H Hnan Hx Hd. unfold trainOnce, backpropagation, net_outputForTraining.
  destruct (nn_layers net) as [|l0 lt0] eqn:El; [congruence|].
  destruct (chain_dense (fun i l v => @layer_outputForTraining RNum (rand i) l v reset) nss (chain_train_ok rand reset) k (l0 :: lt0) O x H Hx) as (ls' & E & D).
  change (@F RNum) with R in *. rewrite E. cbn [bind]. rewrite anyAbnormal_R, Hnan. cbn [orb nn_nan nn_layers nn_opt].
  destruct nss as [|ns nt]; [contradiction|]. destruct ls' as [|l1 lt1]; [contradiction|].
  assert (Hlen : List.length (net_val (ns :: nt) x) = getNumberOfNeurons (last (l1 :: lt1) l1)).
  { transitivity (List.length (net_val (fed_nss (ns :: nt) x) x)); [|eapply last_neurons; eauto].
    clear. generalize (ns :: nt) as nss. clear.
    assert (G : forall nss (y z : list R), List.length y = List.length z -> forall w, List.length (net_val nss y) = List.length (net_val (fed_nss nss w) z)).
    { induction nss as [|a t IH]; intros y z Hyz w; [exact Hyz|].
      change (net_val (a :: t) y) with (net_val t (layer_val a y)).
      change (net_val (fed_nss (a :: t) w) z) with (net_val (fed_nss t (layer_val a w)) (layer_val (map (fed w) a) z)).
      apply IH. now rewrite !layer_val_length, map_length. }
    intros nss. apply G. reflexivity. }
  unfold calculateError. rewrite <- Hlen.
  rewrite (omap_seq_ok _ (fun j => 2 * (nth j d 0 - nth j (net_val (ns :: nt) x) 0))).
  2: { intros j Hj. change (@F RNum) with R in *. rewrite (@lget_nth R d j 0) by lia. cbn [bind]. rewrite (lget_nth _ j 0) by exact Hj. cbn [bind]. rewrite RNum_lit. reflexivity. }
  cbn [bind]. cbn [dchain fed_nss] in H, D. destruct H as (-> & Hn & Ht). destruct D as (-> & Hn1 & Dt). rewrite map_length in Dt.
  destruct (chain_back_dense (nn_opt net) d nt _ lt0 (layer_val ns x) Ht (layer_val_length _ _) lt1 Dt) as (lt' & nt' & E' & U & D').
  cbn [back_err] in E'. change (net_val (ns :: nt) x) with (net_val nt (layer_val ns x)) in *.
  change (@F RNum) with R in *. rewrite E'. cbn [bind].
  unfold layer_train. cbn [l_body l_in l_opts]. change (opts_back _ [] ?e) with e.
  destruct (full_train (nn_opt net) k ns x (back_err nt (layer_val ns x) d) Hn Hx) as (ns' & E'' & U' & F').
  { rewrite back_err_length. apply layer_val_length. }
  rewrite E''. cbn [bind]. eexists _, (ns' :: nt'). split; [reflexivity|]. cbn [nn_layers nn_nan nn_opt]. split.
  - cbn [dchain]. repeat split; auto. destruct U' as [L _]. now rewrite L.
  - split; [split; auto|]. auto.
Qed.

(* what the statement's vocabulary means on such networks *)
Lemma neuron_at_dense (net : @Net RNum) k nss l n : dchain k (nn_layers net) nss ->
  @neuron_at RNum net l n = match nth_error nss l with Some ns => nth_error ns n | None => None end.
Proof.
  unfold neuron_at. generalize (nn_layers net) as ls. intros ls. revert k nss l; induction ls as [|a t IH]; intros k [|ns nt] l H; cbn in H; try contradiction.
  - destruct l; reflexivity.
  - destruct H as (-> & _ & Ht). destruct l as [|l]; cbn; [reflexivity|]. eapply IH; eauto.
Qed.
Lemma upd_net_nth o d nss : forall z nss' l ns, upd_net o d nss z nss' -> nth_error nss l = Some ns ->
  exists ns' , nth_error nss' l = Some ns' /\
    let z' := net_val (firstn l nss) z in upd_layer o (back_err (skipn (S l) nss) (layer_val ns z') d) z' ns ns'.
Proof.
  induction nss as [|a t IH]; intros z nss' [|l] ns H Hl; cbn in Hl; try discriminate; destruct nss' as [|a' t']; try contradiction.
  - injection Hl as ->. destruct H as [U _]. exists a'. split; [reflexivity|]. exact U.
  - destruct H as [_ H]. destruct (IH _ _ l ns H Hl) as (ns' & E & U). exists ns'. split; [exact E|]. exact U.
Qed.
Lemma sqerr_spec d : forall o, (List.length o <= List.length d)%nat -> sum_of_squares d o = sqerr d o.
Proof.
  induction d as [|a t IH]; intros [|b o] H; cbn [List.length] in H; try lia; try reflexivity.
  cbn [sum_of_squares]. unfold sqerr. cbn [List.length]. rewrite sumn_S. cbn [nth]. rewrite IH by lia. unfold sqerr. lra.
Qed.
Lemma dchain_set (nss : list (list RNeu)) : forall k ls l n w t, dchain k ls nss ->
  forall lay ns neuron, nth_error ls l = Some lay -> nth_error nss l = Some ns -> nth_error ns n = Some neuron ->
  dchain k (replace ls l (@set_weight_layer RNum lay n w t)) (replace nss l (replace ns n (with_weight neuron w t))).
Proof.
  induction nss as [|a nt IH]; intros k ls l n w t H lay ns neuron Hl Hns Hn; destruct ls as [|b lt]; cbn in H; try contradiction.
  - destruct l; discriminate.
  - destruct H as (-> & Ha & Ht). destruct l as [|l]; cbn in Hl, Hns.
    + injection Hl as <-. injection Hns as ->. cbn [replace dchain set_weight_layer l_body l_opts l_in]. rewrite Hn. split; [reflexivity|]. split.
      * apply Forall_replace; auto. rewrite Forall_forall in Ha. destruct (Ha neuron (nth_error_In _ _ Hn)) as (W & A & B).
        split; [now apply with_weight_wf|]. auto.
      * now rewrite replace_length.
    + cbn [replace dchain]. split; [reflexivity|]. split; [exact Ha|]. eapply IH; eauto.
Qed.
Lemma replace_split {A} (l : list A) i a x : nth_error l i = Some a -> replace l i x = firstn i l ++ x :: skipn (S i) l.
Proof. revert i; induction l as [|b t IH]; intros [|i] H; try discriminate; [reflexivity|]. cbn. f_equal. now apply IH. Qed.
Lemma nth_split_at {A} (l : list A) i a : nth_error l i = Some a -> l = firstn i l ++ a :: skipn (S i) l.
Proof. revert i; induction l as [|b t IH]; intros [|i] H; try discriminate; [injection H as ->; reflexivity|]. cbn. f_equal. now apply IH. Qed.

Lemma net_output_dense (net : @Net RNum) k nss x reset : nn_layers net <> [] -> dchain k (nn_layers net) nss -> List.length x = k ->
  exists ls, @net_output RNum net x reset = Ok (net_val nss x, mkNet ls (nn_opt net) (nn_nan net) (nn_trainings net)) /\ dchain k ls (fed_nss nss x).
Proof.
  intros Hne H Hx. unfold net_output. destruct (nn_layers net) as [|a t] eqn:E; [congruence|].
  destruct (chain_dense (fun (_ : nat) l v => @layer_output RNum l v reset) nss (chain_test_ok reset) k (a :: t) O x H Hx) as (ls & E' & D).
  change (@F RNum) with R in *. rewrite E'. cbn [bind]. rewrite anyAbnormal_R, orb_false_r. eauto.
Qed.
Lemma nth_fed nss : forall z l ns n neuron, nth_error nss l = Some ns -> nth_error ns n = Some neuron ->
  exists fs, nth_error (fed_nss nss z) l = Some fs /\ nth_error fs n = Some (fed (net_val (firstn l nss) z) neuron).
Proof.
  induction nss as [|a t IH]; intros z [|l] ns n neuron Hl Hn; try discriminate; cbn in Hl.
  - injection Hl as ->. exists (map (fed z) ns). split; [reflexivity|]. now rewrite nth_error_map, Hn.
  - apply (IH (layer_val a z) l ns n neuron Hl Hn).
Qed.
Lemma smooth_all nss : forall z,
  (forall l ns n neuron, nth_error nss l = Some ns -> nth_error ns n = Some neuron -> smooth_at neuron (net_val (firstn l nss) z)) -> smooth nss z.
Proof.
  induction nss as [|a t IH]; intros z H; [exact I|]. split.
  - apply Forall_forall. intros n Hn. apply In_nth_error in Hn as (i & Hi). apply (H O a i n eq_refl Hi).
  - apply IH. intros l ns n neuron Hl Hn. apply (H (S l) ns n neuron Hl Hn).
Qed.

(* every weight: derivative of the error and the change the step makes *)
Lemma step_gradient rand (net net' net1 : @Net RNum) k x d reset o1 l n neuron neuron' :
  dense_network k net -> nn_nan net = false -> List.length x = k ->
  @net_output RNum net x false = Ok (o1, net1) -> (List.length o1 <= List.length d)%nat ->
  (forall l n neuron, @neuron_at RNum net1 l n = Some neuron -> n_act neuron <> a_iSigmoid /\ (n_act neuron = a_ReLU -> n_sum neuron <> 0)) ->
  @trainOnce RNum rand net x d reset = Ok net' ->
  @neuron_at RNum net l n = Some neuron -> @neuron_at RNum net' l n = Some neuron' ->
  exists (e : R) (z : list R), upd (nn_opt net) e z neuron neuron' /\ List.length z = n_in neuron /\
    forall w, (w <= n_in neuron)%nat ->
    derivable_pt_lim (fun t => squared_error (@set_weight RNum net l n w t) x d) (nth w (n_w neuron) 0) (- (e * coef neuron z w)).
Proof.
  intros [Hne Hd] Hnan Hx Ho Hod Hsm Ht Hn Hn'.
  destruct (dense_dchain _ _ Hd) as (nss & D).
  destruct (net_output_dense net k nss x false Hne D Hx) as (ls1 & E1 & D1). rewrite E1 in Ho. injection Ho as <- <-.
  destruct (trainOnce_dense rand net k nss x d reset Hne D Hnan Hx Hod) as (net'' & nss' & E & D' & U & _). rewrite E in Ht. injection Ht as <-.
  rewrite (neuron_at_dense _ _ _ _ _ D) in Hn. destruct (nth_error nss l) as [ns|] eqn:El; [|discriminate].
  rewrite (neuron_at_dense _ _ _ _ _ D') in Hn'.
  destruct (upd_net_nth _ _ _ _ _ _ _ U El) as (ns' & El' & UL). rewrite El' in Hn'. cbv zeta in UL. set (z := net_val (firstn l nss) x) in *.
  assert (Hlt : (n < List.length ns)%nat) by (apply nth_error_Some; congruence).
  destruct UL as [L UL]. specialize (UL n Hlt). rewrite (nth_error_nth _ _ n0 Hn), (nth_error_nth _ _ n0 Hn') in UL.
  exists (nerr (back_err (skipn (S l) nss) (layer_val ns z) d) n neuron z), z. split; [exact UL|].
  pose proof (nth_split_at _ _ _ El) as Es.
  assert (Hz : List.length z = n_in neuron).
  { pose proof (dchain_shaped _ _ _ D) as Hs. rewrite Es in Hs. destruct (shaped_app _ _ _ Hs) as (k' & _ & [Hs' _] & Hlen).
    rewrite Forall_forall in Hs'. destruct (Hs' neuron (nth_error_In _ _ Hn)) as [_ Hk]. unfold z. rewrite (Hlen x Hx). now symmetry. }
  split; [exact Hz|]. intros w Hw.
  assert (Hsmooth : smooth nss x).
  { apply smooth_all. intros l' ns1 n1 neu Hl1 Hn1. destruct (nth_fed nss x l' ns1 n1 neu Hl1 Hn1) as (fs & Ef & En).
    destruct (Hsm l' n1 (fed (net_val (firstn l' nss) x) neu)) as [A B].
    { rewrite (neuron_at_dense _ k (fed_nss nss x)) by exact D1. rewrite Ef. exact En. }
    split; [exact A|exact B]. }
  pose proof (derive_weight (firstn l nss) ns (skipn (S l) nss) k d x n w) as DW.
  rewrite <- Es in DW. specialize (DW (dchain_shaped _ _ _ D) Hx Hsmooth Hlt). rewrite (nth_error_nth _ _ n0 Hn) in DW. specialize (DW Hw). cbv zeta in DW.
  fold z in DW. apply derive_ext with (2 := DW). intros t.
  unfold squared_error, set_weight.
  destruct (nth_error (nn_layers net) l) as [lay|] eqn:Elay.
  2: { exfalso. clear -D El Elay. revert D El Elay. generalize (nn_layers net) as ls. intros ls. revert nss l k; induction ls as [|a lt IH]; intros [|b nt] [|l] k D El Elay; cbn in *; try contradiction; try discriminate.
       destruct D as (_ & _ & D). eapply IH; eauto. }
  match goal with |- context [net_output ?N' x false] => set (net2 := N') end.
  assert (D2 : dchain k (nn_layers net2) (replace nss l (replace ns n (with_weight neuron w t)))) by (unfold net2; cbn [nn_layers]; eapply dchain_set; eauto).
  destruct (net_output_dense net2 k (replace nss l (replace ns n (with_weight neuron w t))) x false) as (ls2 & E2 & _); [|exact D2|exact Hx|].
  { unfold net2. cbn [nn_layers]. destruct (nn_layers net); [congruence|]. destruct l; discriminate. }
  change (@F RNum) with R in *. rewrite E2. rewrite (replace_split _ _ _ _ El). symmetry. apply sqerr_spec.
  (* same number of outputs *)
  assert (G : forall nss a b, List.length a = List.length b -> List.length (net_val nss a) = List.length (net_val nss b)).
  { clear. induction nss as [|c t IH]; intros a b Hab; [exact Hab|]. apply IH. now rewrite !layer_val_length. }
  rewrite net_val_app. change (net_val (?a :: ?b) ?c) with (net_val b (layer_val a c)).
  rewrite (G _ _ (layer_val ns z)) by (rewrite !layer_val_length; apply replace_length).
  rewrite Es in Hod. rewrite net_val_app in Hod. exact Hod.
Qed.
