(* Memory safety: well-formed layers compute outputs of the announced size and stay well-formed, for every arithmetic. *)
From Verif Require Import Base Num ActModel NeuronModel LayerModel NetModel NeuronProofs LayerProofs.
Local Open Scope nat_scope.

Lemma each_wf {A B} (f : nat -> A -> outcome (B * A)) (Q : A -> Prop) (P : B -> Prop) l :
  (forall j a, nth_error l j = Some a -> exists b a', f j a = Ok (b, a') /\ Q a' /\ P b) ->
  exists bs l', each f l = Ok (bs, l') /\ List.length bs = List.length l /\ List.length l' = List.length l /\ Forall Q l' /\ Forall P bs.
Proof.
  intros H. destruct (each_ok f l) as (bs & l' & E).
  { intros j a Ha. destruct (H j a Ha) as (b & a' & E & _). eauto. }
  exists bs, l'. pose proof (each_inv _ _ _ _ E) as (L1 & L2 & Hj). repeat split; auto.
  - apply Forall_forall. intros a' Hin. apply In_nth_error in Hin as (j & Hj'). destruct (nth_error l j) as [a|] eqn:Ea.
    + destruct (Hj j a Ea) as (b & a2 & _ & E2 & Ef). destruct (H j a Ea) as (b3 & a3 & E3 & Q3 & _). congruence.
    + apply nth_error_None in Ea. assert (j < List.length l') by (apply nth_error_Some; congruence). lia.
  - apply Forall_forall. intros b Hin. apply In_nth_error in Hin as (j & Hj'). destruct (nth_error l j) as [a|] eqn:Ea.
    + destruct (Hj j a Ea) as (b2 & a2 & E2 & _ & Ef). destruct (H j a Ea) as (b3 & a3 & E3 & _ & P3). congruence.
    + apply nth_error_None in Ea. assert (j < List.length bs) by (apply nth_error_Some; congruence). lia.
Qed.
Lemma Forall_nth_error {A} (P : A -> Prop) l i a : Forall P l -> nth_error l i = Some a -> P a.
Proof. intros H Hn. rewrite Forall_forall in H. apply H. eapply nth_error_In; eauto. Qed.

Section P.
Context {N : Num}.

(* ---------- recurrent neurons ---------- *)
Definition wf_plain (k : nat) (n : Neuron) : Prop := wf_neuron 1 n /\ n_in n = k.
Definition wf_rneuron (k : nat) (r : RNeuron) : Prop := wf_neuron 2 (r_n r) /\ n_in (r_n r) = k.
Definition wf_gneuron (k : nat) (g : GNeuron) : Prop :=
  g_in g = k /\ wf_rneuron k (g_reset g) /\ wf_rneuron k (g_update g) /\ wf_rneuron k (g_output g).

Lemma simple_output_wf k n x : wf_plain k n -> List.length x = k -> exists v n', simple_output n x = Ok (v, n') /\ wf_plain k n' /\ n_w n' = n_w n.
Proof.
  intros [W Hk] Hx. destruct (simple_output_ok n x W) as (n' & E & W'); [congruence|]. exists (neuron_value n x), n'. split; [exact E|].
  apply simple_output_inv in E as (_ & l & _ & ->). split; [|reflexivity]. split; [exact W'|exact Hk].
Qed.
Lemma simple_back_wf o k n e : wf_plain k n -> exists es n', simple_backOutput o n e = Ok (es, n') /\ wf_plain k n' /\ List.length es = k.
Proof.
  intros [W Hk]. destruct (simple_backOutput_ok o n e W) as (n' & E & W' & Hi). eexists _, n'. split; [exact E|]. split; [split; [exact W'|congruence]|].
  rewrite map_length, firstn_length. destruct W as (HL & _). lia.
Qed.
Lemma simple_train_wf o k n e : wf_plain k n -> exists n', simple_train o n e = Ok n' /\ wf_plain k n'.
Proof.
  intros [W Hk]. unfold simple_train. destruct (sgd_simple_ok o n (fmul e (actd (n_act n) (n_sum n))) W) as (n' & E & W'). exists n'. split; [exact E|].
  split; [exact W'|]. apply sgd_simple_inv in E as (? & ? & ? & ? & ? & ? & _ & _ & _ & En & _). rewrite En. exact Hk.
Qed.

Lemma rec_output_wf k r x reset : wf_rneuron k r -> List.length x = k ->
  exists v r', rec_output r x reset = Ok (v, r') /\ wf_rneuron k r' /\ n_w (r_n r') = n_w (r_n r).
Proof.
  intros [W Hk] Hx. unfold rec_output. set (r0 := if reset then rec_reset r else r).
  assert (Hr : r_n r0 = r_n r) by (unfold r0; destruct reset; reflexivity). cbv zeta. rewrite Hr.
  pose proof W as (Hw & Hp & Hl & He).
  destruct (pushBack_ok _ _ _ x Hl ltac:(congruence)) as (last & E & Wl). rewrite E. cbn [bind].
  rewrite weighted_ok by lia. cbn [bind]. rewrite (lget_nth _ _ fzero) by lia. cbn [bind]. rewrite (lget_nth _ _ fzero) by lia. cbn [bind].
  eexists _, _. split; [reflexivity|]. split; [|reflexivity]. split; [|exact Hk]. cbn [r_n]. repeat split; auto; cbn; try apply Hp; try apply Wl.
Qed.
Lemma sgd_recurrent_wf o k r e : wf_rneuron k r -> exists r', sgd_recurrent o r e = Ok r' /\ wf_rneuron k r' /\ List.length (n_err (r_n r')) = k.
Proof.
  intros [W Hk]. pose proof W as (Hw & Hp & Hl & He). unfold sgd_recurrent. cbv zeta.
  destruct (getBack_ok _ _ _ Hl) as (xs & last & E1 & Lx & Wl). rewrite E1. cbn [bind].
  destruct (getBack_ok _ _ _ Hp) as (ps & prev & E2 & Lp & Wp). rewrite E2. cbn [bind].
  rewrite (omap_seq_ok _ (fun w => fadd (fmul (fmul (fdiv (o_lr o) (fofnat (n_batch (r_n r)))) e) (nth w xs fzero)) (fmul (o_m o) (nth w ps fzero)))).
  2: { intros i Hi. rewrite (lget_nth _ _ fzero) by lia. cbn [bind]. rewrite (lget_nth _ _ fzero) by lia. reflexivity. }
  cbn [bind]. set (ds := map _ _). assert (Lds : List.length ds = n_in (r_n r)) by (unfold ds; rewrite map_length, seq_length; reflexivity).
  rewrite (omap_seq_ok _ (fun w => fadd (nth w (n_w (r_n r)) fzero) (nth w ds fzero))).
  2: { intros i Hi. rewrite (lget_nth _ _ fzero) by lia. cbn [bind]. rewrite (lget_nth _ _ fzero) by lia. reflexivity. }
  cbn [bind]. set (ws := map _ _). assert (Lws : List.length ws = n_in (r_n r)) by (unfold ws; rewrite map_length, seq_length; reflexivity).
  rewrite (lget_nth _ _ fzero) by lia. cbn [bind]. rewrite (lget_nth _ _ fzero) by lia. cbn [bind].
  match goal with |- context [pushBack prev ?d] => destruct (pushBack_ok prev _ _ d Wp) as (prev' & E3 & W3) end.
  { rewrite app_length, Lds. cbn [List.length]. rewrite repeat_length. lia. }
  rewrite E3. cbn [bind]. eexists. split; [reflexivity|]. split; [|cbn; lia]. split; [|exact Hk]. cbn [r_n].
  split; [|split; [exact W3|split; [exact Wl|exact He]]]. cbn [set_wpl n_w n_in]. rewrite app_length, Lws. cbn [List.length]. rewrite skipn_length. lia.
Qed.
Lemma rec_back_wf o k r e : wf_rneuron k r -> exists es r', rec_backOutput o r e = Ok (es, r') /\ wf_rneuron k r' /\ List.length es = k.
Proof.
  intros [W Hk]. pose proof W as (Hw & Hp & Hl & He). unfold rec_backOutput. cbv zeta.
  rewrite (omap_seq_ok _ (fun w => fmul (fmul e (actd (n_act (r_n r)) (n_sum (r_n r)))) (nth w (n_w (r_n r)) fzero))).
  2: { intros i Hi. rewrite (lget_nth _ _ fzero) by lia. cbn [bind]. rewrite (lget_nth _ _ fzero) by lia. reflexivity. }
  cbn [bind]. set (errs := _ ++ _). assert (Le : List.length errs = k).
  { unfold errs. rewrite app_length, map_length, seq_length, skipn_length. lia. }
  match goal with |- context [sgd_recurrent o ?r0 ?e0] => destruct (sgd_recurrent_wf o k r0 e0) as (r' & E & W' & _) end.
  { split; [|exact Hk]. cbn [r_n]. repeat split; auto; try apply Hp; try apply Hl. cbn. lia. }
  rewrite E. cbn [bind]. eauto.
Qed.
Lemma rec_train_wf o k r e : wf_rneuron k r -> exists r', rec_train o r e = Ok r' /\ wf_rneuron k r'.
Proof. intros W. unfold rec_train. destruct (sgd_recurrent_wf o k r (fmul e (actd (n_act (r_n r)) (n_sum (r_n r)))) W) as (r' & E & W' & _). eauto. Qed.

Lemma set_lastOut_wf k r v : wf_rneuron k r -> wf_rneuron k (set_lastOut r v). Proof. intros H; exact H. Qed.
Lemma gru_output_wf k g x reset : wf_gneuron k g -> List.length x = k ->
  exists v g', gru_output g x reset = Ok (v, g') /\ wf_gneuron k g' /\ gru_weights g' = gru_weights g.
Proof.
  intros (Hi & W1 & W2 & W3) Hx. unfold gru_output. set (g0 := if reset then gru_reset g else g).
  assert (G : g_in g0 = g_in g /\ g_reset g0 = g_reset g /\ g_update g0 = g_update g /\ g_output g0 = g_output g) by (unfold g0; destruct reset; auto).
  destruct G as (G0 & G1 & G2 & G3). cbv zeta. rewrite G1, G2, G3.
  destruct (rec_output_wf k _ x reset W1 Hx) as (v1 & r1 & E1 & R1 & Q1). rewrite E1. cbn [bind].
  destruct (rec_output_wf k _ x reset W2 Hx) as (v2 & r2 & E2 & R2 & Q2). rewrite E2. cbn [bind].
  destruct (rec_output_wf k (set_lastOut (g_output g) (fmul (r_lastOut (g_output g)) v1)) x reset) as (v3 & r3 & E3 & R3 & Q3); [now apply set_lastOut_wf|auto|].
  rewrite E3. cbn [bind]. eexists _, _. split; [reflexivity|]. split.
  - split; [cbn; congruence|]. cbn. repeat split; try apply R1; try apply R2; try apply R3.
  - unfold gru_weights. cbn. rewrite Q1, Q2, Q3. reflexivity.
Qed.
Lemma gru_gates_wf o k g e : 0 < k -> wf_gneuron k g -> exists e1 e2 e3 g', gru_gates o g e = Ok (e1, e2, e3, g') /\ wf_gneuron k g' /\
  List.length e1 = k /\ List.length e2 = k /\ List.length e3 = k.
Proof.
  intros Hk (Hi & W1 & W2 & W3). unfold gru_gates. cbv zeta.
  destruct (rec_back_wf o k _ (fmul e (g_updOut g)) W3) as (e1 & r3 & E1 & R3 & L1). rewrite E1. cbn [bind].
  destruct (rec_back_wf o k _ (fadd (fmul e (g_outOut g)) (fmul e (g_updOut g))) W2) as (e2 & r2 & E2 & R2 & L2). rewrite E2. cbn [bind].
  unfold lgetZ. destruct (Z.ltb_spec (Z.of_nat (List.length e1) - 1) 0); [lia|]. rewrite (lget_nth _ _ fzero) by lia. cbn [bind].
  match goal with |- context [rec_backOutput o (g_reset g) ?d] => destruct (rec_back_wf o k _ d W1) as (e3 & r1 & E3 & R1 & L3) end.
  rewrite E3. cbn [bind]. eexists _, _, _, _. split; [reflexivity|]. split; [|auto]. split; [exact Hi|]. cbn. auto.
Qed.
Lemma addTo_length a b : List.length (addTo a b) = List.length a.
Proof. unfold addTo. rewrite app_length, zipwith_length, skipn_length. lia. Qed.
Lemma gru_back_wf o k g e : 0 < k -> wf_gneuron k g -> exists es g', gru_backOutput o g e = Ok (es, g') /\ wf_gneuron k g' /\ List.length es = k.
Proof.
  intros Hk W. unfold gru_backOutput. destruct (gru_gates_wf o k g e Hk W) as (e1 & e2 & e3 & g' & E & (A & B & C & D) & L1 & _). rewrite E. cbn [bind].
  eexists _, _. split; [reflexivity|]. split; [split; auto|]. now rewrite !addTo_length.
Qed.
Lemma gru_train_wf o k g e : 0 < k -> wf_gneuron k g -> exists g', gru_train o g e = Ok g' /\ wf_gneuron k g'.
Proof. intros Hk W. unfold gru_train. destruct (gru_gates_wf o k g e Hk W) as (e1 & e2 & e3 & g' & E & W' & _). rewrite E. cbn. eauto. Qed.

(* ---------- layers ---------- *)
Definition rowsOK (lo : Z) (k nin : nat) (rows : list (list Z)) : Prop :=
  Forall (fun row => List.length row = nin /\ Forall (fun i => lo <= i < Z.of_nat k)%Z row) rows.
Definition wf_filter (k : nat) (kd : fkind) (f : Filter) (ns : list Neuron) (m : nat) : Prop :=
  match kd with
  | Conv1D | Conv2D => rowsOK 0 k (f_nin f) (f_index f) /\ m = List.length (f_index f) * List.length ns /\ Forall (wf_plain (f_nin f)) ns
  | Loc1D | Loc2D => rowsOK (-1) k (f_nin f) (f_index f) /\ 0 < f_filters f /\ m = List.length (f_index f) * f_filters f /\
                     m = List.length ns /\ f_kpf f = List.length (f_index f) /\ Forall (wf_plain (f_nin f)) ns
  | Pool1D | Pool2D => rowsOK (-1) k (f_nin f) (f_index f) /\ Forall (fun row => exists i, In i row /\ (0 <= i)%Z) (f_index f) /\
                       m = List.length (f_index f) /\ m = List.length (f_maxIndex f) /\ Forall (fun i => 0 <= i < Z.of_nat k)%Z (f_maxIndex f) /\ ns = []
  end.
Definition wf_body (k : nat) (b : Body) (m : nat) : Prop :=
  match b with
  | BFull ns => m = List.length ns /\ Forall (wf_plain k) ns
  | BRec ns => m = List.length ns /\ Forall (wf_rneuron k) ns
  | BGru ns => m = List.length ns /\ Forall (wf_gneuron k) ns
  | BFilter kd f ns => m = f_kernels f /\ wf_filter k kd f ns m
  end.
Definition wf_layer (k : nat) (l : Layer) (m : nat) : Prop :=
  l_in l = k /\ 0 < k /\ 0 < m /\ wf_body k (l_body l) m /\ m = fold_left Nat.mul (getShapeOfOutput l) 1.

Lemma lgetZ_ok {A} (l : list A) i d : (0 <= i < Z.of_nat (List.length l))%Z -> lgetZ l i = Ok (nth (Z.to_nat i) l d).
Proof. intros H. unfold lgetZ. destruct (Z.ltb_spec i 0); [lia|]. apply lget_nth. lia. Qed.
Lemma fill_ok m l : List.length l = m -> fill m l = Ok l.
Proof. intros <-. unfold fill. rewrite Nat.leb_refl, Nat.sub_diag. cbn. now rewrite app_nil_r. Qed.
Lemma convWindow_ok f k x row : List.length row = f_nin f -> Forall (fun i => 0 <= i < Z.of_nat k)%Z row -> List.length x = k ->
  convWindow f x row = Ok (map (fun i => nth (Z.to_nat i) x fzero) row).
Proof.
  intros Hr Hf Hx. unfold convWindow. rewrite (omap_seq_ok _ (fun i => nth (Z.to_nat (nth i row 0%Z)) x fzero)).
  - f_equal. rewrite <- Hr. rewrite <- (map_map (fun i => nth i row 0%Z) (fun i => nth (Z.to_nat i) x fzero)). f_equal. apply map_nth_seq.
  - intros i Hi. rewrite (lget_nth _ _ 0%Z) by lia. cbn [bind]. apply lgetZ_ok. rewrite Forall_forall in Hf. rewrite Hx. apply Hf. apply nth_In. lia.
Qed.
Definition valueAt (x : list F) (i : Z) : F := if (0 <=? i)%Z then nth (Z.to_nat i) x fzero else fzero.
Lemma locWindow_ok f k x row : List.length row = f_nin f -> Forall (fun i => -1 <= i < Z.of_nat k)%Z row -> List.length x = k ->
  locWindow f x row = Ok (map (valueAt x) row).
Proof.
  intros Hr Hf Hx. unfold locWindow. rewrite (omap_seq_ok _ (fun i => valueAt x (nth i row 0%Z))).
  - f_equal. rewrite <- Hr. rewrite <- (map_map (fun i => nth i row 0%Z) (valueAt x)). f_equal. apply map_nth_seq.
  - intros i Hi. rewrite (lget_nth _ _ 0%Z) by lia. cbn [bind]. unfold valueAt. destruct (Z.leb_spec 0 (nth i row 0)%Z); [|reflexivity].
    apply lgetZ_ok. rewrite Forall_forall in Hf. rewrite Hx. split; [lia|]. apply Hf. apply nth_In. lia.
Qed.
End P.
