(* Facts about queues, neurons and the stochastic gradient step. *)
From Verif Require Import Base Num ActModel NeuronModel.
Local Open Scope nat_scope.

Section P.
Context {N : Num}.
Local Arguments skipn : simpl never.

(* ---------- queues ---------- *)
Definition wf_circ (c : Circ) (b d : nat) : Prop :=
  0 < b /\ List.length (q_data c) = b /\ Forall (fun r => List.length r = d) (q_data c) /\ q_push c <= b /\ q_get c <= b.

Lemma circ_init_wf b d : 0 < b -> wf_circ (circ_init b d) b d.
Proof.
  intros Hb. unfold wf_circ, circ_init; cbn. rewrite repeat_length. repeat split; try lia.
  apply Forall_forall. intros r Hr. apply repeat_spec in Hr. subst. apply repeat_length.
Qed.

Lemma Forall_replace {A} (P : A -> Prop) l i x : Forall P l -> P x -> Forall P (replace l i x).
Proof.
  intros H Hx. revert i; induction H as [|a t Ha Ht IH]; intros [|i]; cbn; constructor; auto.
Qed.

Lemma getBack_ok c b d : wf_circ c b d -> exists v c', getBack c = Ok (v, c') /\ List.length v = d /\ wf_circ c' b d.
Proof.
  intros (Hb & Hl & Hr & Hp & Hg). unfold getBack. rewrite Hl.
  set (i := if b <=? q_get c then 0 else q_get c).
  assert (Hi : i < b) by (unfold i; destruct (Nat.leb_spec b (q_get c)); lia).
  destruct (lget_in_range (q_data c) i) as [v Hv]; [lia|]. rewrite Hv. cbn.
  exists v, (mkCirc (q_data c) (q_push c) (S i)). split; [reflexivity|]. split.
  - rewrite Forall_forall in Hr. apply Hr. apply lget_Ok in Hv. eapply nth_error_In; eauto.
  - unfold wf_circ; cbn. repeat split; auto; lia.
Qed.

Lemma pushBack_ok c b d v : wf_circ c b d -> List.length v = d -> exists c', pushBack c v = Ok c' /\ wf_circ c' b d.
Proof.
  intros (Hb & Hl & Hr & Hp & Hg) Hv. unfold pushBack. rewrite Hl.
  set (i := if b <=? q_push c then 0 else q_push c).
  assert (Hi : i < b) by (unfold i; destruct (Nat.leb_spec b (q_push c)); lia).
  unfold lset. rewrite Hl. destruct (Nat.ltb_spec i b); [|lia]. cbn.
  eexists. split; [reflexivity|]. unfold wf_circ; cbn. rewrite replace_length. repeat split; auto; try lia.
  apply Forall_replace; auto.
Qed.

(* a queue of length one holds the last pushed row *)
Lemma getBack_1 c d : wf_circ c 1 d -> exists r, q_data c = [r] /\ getBack c = Ok (r, mkCirc [r] (q_push c) 1).
Proof.
  intros (Hb & Hl & Hr & Hp & Hg). destruct (q_data c) as [|r [|r' t]] eqn:E; try discriminate.
  exists r. split; auto. unfold getBack. rewrite E.
  replace (if List.length [r] <=? q_get c then 0 else q_get c) with 0; [reflexivity|].
  cbn. destruct (q_get c) as [|[|g]]; cbn; auto; lia.
Qed.
Lemma pushBack_1 c d v : wf_circ c 1 d -> pushBack c v = Ok (mkCirc [v] 1 (q_get c)).
Proof.
  intros (Hb & Hl & Hr & Hp & Hg). destruct (q_data c) as [|r [|r' t]] eqn:E; try discriminate.
  unfold pushBack. rewrite E.
  replace (if List.length [r] <=? q_push c then 0 else q_push c) with 0; [reflexivity|].
  cbn. destruct (q_push c) as [|[|g]]; cbn; auto; lia.
Qed.

(* ---------- weighted sums ---------- *)
Definition dotp (xs ws : list F) : F := fold_left (fun acc p => fadd acc (fmul (fst p) (snd p))) (combine xs ws) fzero.

Lemma weighted_gen (xs ws : list F) : forall (pre pre' : list F) acc,
  List.length pre = List.length pre' -> List.length xs <= List.length ws ->
  ofold (fun tmp w => bind (lget (pre ++ xs) w) (fun x => bind (lget (pre' ++ ws) w) (fun a => Ok (fadd tmp (fmul x a)))))
        (seq (List.length pre) (List.length xs)) acc
  = Ok (fold_left (fun acc p => fadd acc (fmul (fst p) (snd p))) (combine xs ws) acc).
Proof.
  revert ws; induction xs as [|x xs IH]; intros ws pre pre' acc Hp Hl; cbn; auto.
  destruct ws as [|w ws]; cbn in Hl; [lia|].
  unfold lget at 1. rewrite nth_error_app2, Nat.sub_diag by lia. cbn.
  unfold lget at 1. rewrite nth_error_app2 by lia. rewrite Hp, Nat.sub_diag. cbn.
  specialize (IH ws (pre ++ [x]) (pre' ++ [w]) (fadd acc (fmul x w))).
  rewrite !app_length in IH. cbn in IH. rewrite <- !app_assoc in IH. cbn in IH.
  rewrite <- Hp. replace (S (List.length pre)) with (List.length pre + 1) by lia. apply IH; lia.
Qed.
Lemma weighted_ok xs ws : List.length xs <= List.length ws -> weighted xs ws = Ok (dotp xs ws).
Proof. intros H. apply (weighted_gen xs ws [] [] fzero); auto. Qed.

Lemma weighted_inv xs ws v : weighted xs ws = Ok v -> List.length xs <= List.length ws /\ v = dotp xs ws.
Proof.
  intros H. destruct (le_lt_dec (List.length xs) (List.length ws)) as [Hl|Hl].
  - rewrite weighted_ok in H by auto. injection H as <-; auto.
  - exfalso. unfold weighted in H.
    assert (E : seq 0 (List.length xs) = seq 0 (List.length ws) ++ List.length ws :: seq (S (List.length ws)) (List.length xs - S (List.length ws))).
    { replace (List.length xs) with (List.length ws + S (List.length xs - S (List.length ws))) at 1 by lia.
      rewrite seq_app. reflexivity. }
    rewrite E, ofold_app in H. apply bind_Ok_inv in H as (s & _ & H). cbn in H.
    apply bind_Ok_inv in H as (s' & H & _). apply bind_Ok_inv in H as (x & _ & H).
    apply bind_Ok_inv in H as (a & H & _). apply lget_Ok in H.
    assert (Hn : nth_error ws (List.length ws) = None) by (apply nth_error_None; lia). congruence.
Qed.

(* ---------- neurons ---------- *)
(* [extra] is the number of weights besides those of the inputs: 1 (bias) or 2 (recurrence and bias) *)
Definition wf_neuron (extra : nat) (n : Neuron) : Prop :=
  List.length (n_w n) = n_in n + extra /\ wf_circ (n_prev n) (n_batch n) (n_in n + extra) /\
  wf_circ (n_last n) (n_batch n) (n_in n) /\ List.length (n_err n) = n_in n.

Lemma neuron_init_wf ni b e bias a draws :
  0 < b -> 0 < e -> exists n, neuron_init ni b (ni + e) bias a draws = Ok n /\ wf_neuron e n /\ n_in n = ni /\ n_batch n = b
    /\ n_act n = a /\ n_bias n = bias.
Proof.
  intros Hb He. destruct (ni + e) as [|m] eqn:E; [lia|]. cbn [neuron_init]. eexists. split; [reflexivity|].
  unfold wf_neuron; cbn [n_w n_in n_prev n_last n_batch n_err n_act n_bias].
  repeat split; auto using circ_init_wf, repeat_length.
  - rewrite app_length, map_length, seq_length. cbn. lia.
  - unfold circ_init; cbn. now rewrite repeat_length.
  - apply Forall_forall. intros r Hr. apply repeat_spec in Hr. subst. rewrite repeat_length. lia.
  - cbn; lia.
  - cbn; lia.
  - unfold circ_init; cbn. now rewrite repeat_length.
  - apply Forall_forall. intros r Hr. apply repeat_spec in Hr. subst. now rewrite repeat_length.
  - cbn; lia.
  - cbn; lia.
Qed.

(* the value a neuron computes *)
Definition neuron_sum (n : Neuron) (x : list F) : F := fadd (dotp x (n_w n)) (fmul (nth (List.length x) (n_w n) fzero) (n_bias n)).
Definition neuron_value (n : Neuron) (x : list F) : F := act (n_act n) (neuron_sum n x).

Lemma simple_output_inv n x v n' : simple_output n x = Ok (v, n') ->
  v = neuron_value n x /\ exists last, pushBack (n_last n) x = Ok last /\ n' = set_sum n (neuron_sum n x) last.
Proof.
  unfold simple_output. intros H. apply bind_Ok_inv in H as (last & Hl & H).
  apply bind_Ok_inv in H as (tmp & Ht & H). apply bind_Ok_inv in H as (wb & Hw & H). injection H as <- <-.
  apply weighted_inv in Ht as [Hle ->]. apply lget_Ok in Hw.
  unfold neuron_value, neuron_sum. rewrite (nth_error_nth _ _ fzero Hw). split; auto. exists last; auto.
Qed.
Lemma simple_output_ok n x : wf_neuron 1 n -> List.length x = n_in n ->
  exists n', simple_output n x = Ok (neuron_value n x, n') /\ wf_neuron 1 n'.
Proof.
  intros (Hw & Hp & Hl & He) Hx. unfold simple_output.
  destruct (pushBack_ok _ _ _ x Hl Hx) as (last & E & Hlast). rewrite E. cbn.
  rewrite weighted_ok by lia. cbn. rewrite (lget_nth _ _ fzero) by lia. cbn.
  eexists. split; [reflexivity|]. unfold wf_neuron, set_sum; cbn. auto.
Qed.

(* ---------- the gradient step ---------- *)
Definition lr_of (o : SGD) (n : Neuron) : F := fdiv (o_lr o) (fofnat (n_batch n)).
Definition delta_in (o : SGD) (n : Neuron) (e x p : F) : F := fadd (fmul (fmul (lr_of o n) e) x) (fmul (o_m o) p).
Definition delta_bias (o : SGD) (n : Neuron) (e p : F) : F := fadd (fmul (fmul (lr_of o n) e) (n_bias n)) (fmul (o_m o) p).

Lemma omap_seq_inv {B} (f : nat -> outcome B) k r : omap f (seq 0 k) = Ok r ->
  List.length r = k /\ forall i d, i < k -> f i = Ok (nth i r d).
Proof.
  intros H. pose proof (omap_Ok_length _ _ _ H) as HL. rewrite seq_length in HL. split; auto.
  intros i d Hi. destruct (omap_Ok_nth f _ _ i i H) as (b & Hb & Hn).
  { rewrite (nth_error_nth' _ 0) by (rewrite seq_length; auto). rewrite seq_nth by auto. reflexivity. }
  rewrite Hb. f_equal. symmetry. now apply nth_error_nth.
Qed.
Lemma omap_seq_ok {B} (f : nat -> outcome B) (g : nat -> B) k : (forall i, i < k -> f i = Ok (g i)) ->
  omap f (seq 0 k) = Ok (map g (seq 0 k)).
Proof. intros H. apply omap_all_ok. intros a Ha. apply in_seq in Ha. apply H. lia. Qed.

Lemma lget_Ok_nth {A} (l : list A) i a d : lget l i = Ok a -> i < List.length l /\ a = nth i l d.
Proof.
  intros H. apply lget_Ok in H. split; [apply nth_error_Some; congruence|]. symmetry. now apply nth_error_nth.
Qed.

Lemma sgd_simple_inv o n e n' : sgd_simple o n e = Ok n' ->
  exists xs last ps prev prev' deltas,
    getBack (n_last n) = Ok (xs, last) /\ getBack (n_prev n) = Ok (ps, prev) /\ pushBack prev deltas = Ok prev' /\
    n' = set_wpl n (n_w n') prev' last /\
    List.length deltas = List.length (n_w n) /\ List.length (n_w n') = List.length (n_w n) /\
    n_in n < List.length (n_w n) /\ n_in n <= List.length xs /\ n_in n < List.length ps /\
    (forall w, w < n_in n -> nth w deltas fzero = delta_in o n e (nth w xs fzero) (nth w ps fzero)) /\
    nth (n_in n) deltas fzero = delta_bias o n e (nth (n_in n) ps fzero) /\
    (forall w, n_in n < w -> nth w deltas fzero = fzero) /\
    (forall w, w < n_in n -> nth w (n_w n') fzero = fadd (nth w (n_w n) fzero) (nth w deltas fzero)) /\
    nth (n_in n) (n_w n') fzero = nth (n_in n) deltas fzero /\
    (forall w, n_in n < w -> nth w (n_w n') fzero = nth w (n_w n) fzero).
Proof.
  unfold sgd_simple. intros H.
  apply bind_Ok_inv in H as ([xs last] & Hx & H). cbv beta iota in H.
  apply bind_Ok_inv in H as ([ps prev] & Hp & H). cbv beta iota zeta in H.
  apply bind_Ok_inv in H as (deltas & Hd & H).
  apply bind_Ok_inv in H as (neww & Hw & H).
  apply bind_Ok_inv in H as (pb & Hpb & H).
  apply bind_Ok_inv in H as (wb & Hwb & H).
  apply bind_Ok_inv in H as (prev' & Hprev & H). injection H as <-.
  apply omap_seq_inv in Hd as [Ld Hd]. apply omap_seq_inv in Hw as [Lw Hw].
  apply lget_Ok_nth with (d := fzero) in Hpb as [Lp ->]. apply lget_Ok_nth with (d := fzero) in Hwb as [Lwb _].
  exists xs, last, ps, prev, prev',
    (deltas ++ fadd (fmul (fmul (lr_of o n) e) (n_bias n)) (fmul (o_m o) (nth (n_in n) ps fzero))
      :: repeat fzero (List.length (n_w n) - S (n_in n))).
  split; [auto|]. split; [auto|]. split; [auto|]. split; [reflexivity|].
  cbn [set_wpl n_w].
  assert (Hxs : n_in n <= List.length xs).
  { destruct (n_in n) as [|k] eqn:Ek; [lia|]. specialize (Hd k fzero ltac:(lia)).
    apply bind_Ok_inv in Hd as (x & Hx' & _). apply lget_Ok_nth with (d := fzero) in Hx' as [? _]. lia. }
  split. { rewrite app_length, Ld. cbn. rewrite repeat_length. lia. }
  split. { rewrite app_length, Lw. cbn [List.length]. rewrite skipn_length. lia. }
  split; [auto|]. split; [auto|]. split; [auto|].
  split. { intros w Hlt. rewrite app_nth1 by lia. specialize (Hd w fzero Hlt).
    apply bind_Ok_inv in Hd as (x & Hx' & Hd). apply bind_Ok_inv in Hd as (p & Hp' & Hd). injection Hd as <-.
    apply lget_Ok_nth with (d := fzero) in Hx' as [_ ->]; apply lget_Ok_nth with (d := fzero) in Hp' as [_ ->]. reflexivity. }
  split. { rewrite app_nth2 by lia. rewrite Ld, Nat.sub_diag. reflexivity. }
  split. { intros w Hgt. rewrite app_nth2 by lia. rewrite Ld. destruct (w - n_in n) as [|j] eqn:Ej; [lia|]. cbn.
    destruct (nth_in_or_default j (repeat fzero (List.length (n_w n) - S (n_in n))) fzero) as [Hin|Hd0]; [|exact Hd0].
    now apply repeat_spec in Hin. }
  split. { intros w Hlt. rewrite app_nth1 by lia. specialize (Hw w fzero Hlt).
    apply bind_Ok_inv in Hw as (a & Ha & Hw). apply bind_Ok_inv in Hw as (dd & Hdd & Hw). injection Hw as <-.
    apply lget_Ok_nth with (d := fzero) in Ha as [_ ->]; apply lget_Ok_nth with (d := fzero) in Hdd as [_ ->].
    rewrite app_nth1 by lia. reflexivity. }
  split. { rewrite app_nth2 by lia. rewrite app_nth2 by lia. rewrite Ld, Lw, Nat.sub_diag. reflexivity. }
  intros w Hgt. rewrite app_nth2 by lia. rewrite Lw. destruct (w - n_in n) as [|j] eqn:Ej; [lia|]. cbn [nth].
  rewrite <- (firstn_skipn (S (n_in n)) (n_w n)) at 2. rewrite app_nth2; rewrite firstn_length; [f_equal; lia|lia].
Qed.

Lemma sgd_simple_ok o n e : wf_neuron 1 n -> exists n', sgd_simple o n e = Ok n' /\ wf_neuron 1 n'.
Proof.
  intros (Hw & Hp & Hl & He). unfold sgd_simple.
  destruct (getBack_ok _ _ _ Hl) as (xs & last & E1 & Lx & Wl). rewrite E1. cbn [bind].
  destruct (getBack_ok _ _ _ Hp) as (ps & prev & E2 & Lp & Wp). rewrite E2. cbn [bind].
  rewrite (omap_seq_ok _ (fun w => delta_in o n e (nth w xs fzero) (nth w ps fzero))).
  2: { intros i Hi. rewrite (lget_nth xs i fzero), (lget_nth ps i fzero) by lia. reflexivity. }
  cbn [bind].
  set (ds := map _ (seq 0 (n_in n))).
  assert (Lds : List.length ds = n_in n) by (unfold ds; now rewrite map_length, seq_length).
  rewrite (omap_seq_ok _ (fun w => fadd (nth w (n_w n) fzero) (nth w ds fzero))).
  2: { intros i Hi. rewrite (lget_nth (n_w n) i fzero), (lget_nth ds i fzero) by lia. reflexivity. }
  cbn [bind].
  rewrite (lget_nth ps _ fzero), (lget_nth (n_w n) _ fzero) by lia. cbn [bind].
  match goal with |- context [pushBack prev ?d] => set (dw := d) end.
  assert (Ldw : List.length dw = n_in n + 1).
  { unfold dw. rewrite app_length. cbn. rewrite repeat_length. lia. }
  destruct (pushBack_ok _ _ _ dw Wp Ldw) as (prev' & E3 & Wp'). rewrite E3. cbn [bind].
  eexists. split; [reflexivity|]. unfold wf_neuron, set_wpl; cbn. split; [|auto].
  rewrite app_length, map_length, seq_length. cbn [List.length]. rewrite skipn_length. lia.
Qed.

Lemma nth_firstn_lt {A} (l : list A) k i d : i < k -> nth i (firstn k l) d = nth i l d.
Proof. revert k i; induction l as [|a t IH]; intros [|k] [|i] H; cbn; auto; try lia. apply IH. lia. Qed.

Lemma simple_backOutput_ok o n e : wf_neuron 1 n ->
  exists n' , simple_backOutput o n e = Ok (map (fun w => fmul (fmul e (actd (n_act n) (n_sum n))) w) (firstn (n_in n) (n_w n)), n')
    /\ wf_neuron 1 n' /\ n_in n' = n_in n.
Proof.
  intros H. pose proof H as (Hw & Hp & Hl & He). unfold simple_backOutput. cbv zeta.
  set (err := fmul e (actd (n_act n) (n_sum n))).
  rewrite He. rewrite (omap_seq_ok _ (fun w => fmul err (nth w (n_w n) fzero))).
  2: { intros i Hi. rewrite (lget_nth (n_w n) i fzero) by lia. reflexivity. }
  cbn [bind].
  replace (map (fun w => fmul err (nth w (n_w n) fzero)) (seq 0 (n_in n))) with (map (fun w => fmul err w) (firstn (n_in n) (n_w n))).
  2: { apply nth_error_ext. intros i. destruct (Nat.ltb_spec i (n_in n)).
    - rewrite !nth_error_map. rewrite (nth_error_nth' (firstn (n_in n) (n_w n)) fzero) by (rewrite firstn_length; lia).
      rewrite (nth_error_nth' (seq 0 (n_in n)) 0) by (rewrite seq_length; lia). cbn. rewrite seq_nth by lia. cbn.
      rewrite nth_firstn_lt by auto. reflexivity.
    - rewrite (proj2 (nth_error_None _ _)), (proj2 (nth_error_None _ _)); auto; rewrite map_length; [rewrite seq_length; lia|rewrite firstn_length; lia]. }
  destruct (sgd_simple_ok o (set_err n (map (fun w => fmul err w) (firstn (n_in n) (n_w n)))) err) as (n' & E & W).
  { unfold wf_neuron, set_err; cbn. repeat split; auto; try (apply Hp || apply Hl). rewrite map_length, firstn_length. lia. }
  rewrite E. cbn. exists n'. split; [reflexivity|]. split; [auto|].
  apply sgd_simple_inv in E as (? & ? & ? & ? & ? & ? & _ & _ & _ & -> & _). reflexivity.
Qed.
End P.
