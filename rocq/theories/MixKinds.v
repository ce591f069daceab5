(* Fully connected, locally connected and one-position convolution layers as layers of units. *)
From Coq Require Import Reals Lra.
From Verif Require Import Base Num NumOrder ActModel ActProofs NeuronModel LayerModel NetModel NetSpec NeuronProofs LayerProofs SafeProofs GradProofs DenseProofs SafeLayers FactoryModel FactorySpec FactoryProofs SafeNet BuildProofs FilterSpec HistProofs LOptSpec BackSpec MixSpec MixProofs MixLayers.
Local Open Scope R_scope.

Ltac rl := change (@F RNum) with R in *; lia.
Definition pus (rows : nat -> list Z) (ns : list RNeu) : list punit := map (fun p => pu_of (snd p) (rows (fst p))) (combine (seq 0 (List.length ns)) ns).
Lemma nth_combine_seq {A} (l : list A) : forall s j, nth_error (combine (seq s (List.length l)) l) j = option_map (fun a => (s + j, a)%nat) (nth_error l j).
Proof.
  induction l as [|a t IH]; intros s [|j]; try reflexivity.
  - cbn. f_equal. f_equal. lia.
  - cbn [List.length seq combine nth_error]. rewrite IH. destruct (nth_error t j); cbn; [|reflexivity]. do 2 f_equal. lia.
Qed.
Lemma pus_at rows ns j : nth_error (pus rows ns) j = option_map (fun n => pu_of n (rows j)) (nth_error ns j).
Proof. unfold pus. rewrite nth_error_map, nth_combine_seq. destruct (nth_error ns j); reflexivity. Qed.
Lemma pus_length rows ns : List.length (pus rows ns) = List.length ns.
Proof. unfold pus. rewrite map_length, combine_length, seq_length. lia. Qed.
Lemma pus_in rows ns u : In u (pus rows ns) -> exists j n, nth_error ns j = Some n /\ u = pu_of n (rows j).
Proof.
  intros H. apply In_nth_error in H as (j & H). rewrite pus_at in H. destruct (nth_error ns j) as [n|] eqn:E; [|discriminate]. injection H as <-. eauto.
Qed.
Definition plain_ok (k : nat) (rows : nat -> list Z) (ns : list RNeu) : Prop :=
  forall j n, nth_error ns j = Some n -> wf_neuron 1 n /\ n_batch n = 1%nat /\ List.length (rows j) = n_in n /\ Forall (fun i => (i < Z.of_nat k)%Z) (rows j).
Definition feds (rows : nat -> list Z) (z : list R) (ns ns1 : list RNeu) : Prop :=
  List.length ns1 = List.length ns /\ forall j n, nth_error ns j = Some n -> nth_error ns1 j = Some (fed (reads z (rows j)) n).
Lemma pus_change rows ns n q t u : nth_error ns n = Some u -> (q < n_in u)%nat ->
  pus rows (modify ns n (fun u => @changed RNum u q t)) = replace (pus rows ns) n (uset (pu_of u (rows n)) q t).
Proof.
  intros Hn Hq. apply nth_error_ext. intros j. unfold modify. rewrite Hn. rewrite pus_at, !nth_error_replace, pus_at, pus_length. destruct (Nat.eqb_spec j n) as [->|]; [|reflexivity].
  destruct (Nat.ltb_spec n (List.length ns)); [|reflexivity]. cbn [option_map]. now rewrite changed_pu.
Qed.
Lemma modify_length {A} (l : list A) i f : List.length (modify l i f) = List.length l.
Proof. unfold modify. destruct (nth_error l i); [apply replace_length|reflexivity]. Qed.
Lemma plain_change k rows ns n q t : plain_ok k rows ns -> plain_ok k rows (modify ns n (fun u => @changed RNum u q t)).
Proof.
  intros H j v Hj. unfold modify in Hj. destruct (nth_error ns n) as [u|] eqn:En; [|now apply H]. rewrite nth_error_replace in Hj. destruct (Nat.eqb_spec j n) as [->|]; [|now apply H].
  destruct (n <? List.length ns)%nat; [|discriminate]. injection Hj as <-. destruct (H n u En) as (A & B & C & D). split; [now apply changed_wf|]. auto.
Qed.

Definition out_smooth (l : RLay) (z : list R) : Prop := forall o l1, @layer_output RNum l z false = Ok (o, l1) -> forall n u, @unit_at RNum l1 n = Some u -> smooth_unit u.
Section Plain.
Variables (o : @SGD RNum) (k : nat) (rows : nat -> list Z) (mk : list RNeu -> @Body RNum) (ns : list RNeu) (z : list R).
Hypothesis Hunit : forall ns n, @unit_at RNum (mkLayer k (mk ns) []) n = nth_error ns n.
Hypothesis Hchange : forall ns n q t, @change_weight RNum (mkLayer k (mk ns) []) n q t = mkLayer k (mk (modify ns n (fun u => @changed RNum u q t))) [].
Hypothesis Hweights : forall ns, body_weights (mk ns) = map n_w ns.
Hypothesis Hz : List.length z = k.
Hypothesis Hok : plain_ok k rows ns.
Hypothesis Hfwd : forall ns' y reset, List.length ns' = List.length ns -> plain_ok k rows ns' -> List.length y = k ->
  exists outs ns1, @body_output RNum (mk ns') y reset = Ok (outs, mk ns1) /\ List.length outs = List.length ns /\
    (forall j n, nth_error ns' j = Some n -> nth_error outs j = Some (@neuron_value RNum n (reads y (rows j)))) /\ feds rows y ns' ns1.
Hypothesis Hback : forall ns1 e, feds rows z ns ns1 -> List.length e = List.length ns ->
  exists r ns2, @body_back RNum o k (mk ns1) e = Ok (r, mk ns2) /\ List.length r = k /\
    (forall u, List.length u = k -> inner r u = Rsum (map (fun j => match nth_error ns j with Some n => nth j e 0 * @actd RNum (n_act n) (@neuron_sum RNum n (reads z (rows j))) * inner (reads u (rows j)) (n_w n) | None => 0 end) (seq 0 (List.length ns)))) /\
    forall j n1, nth_error ns1 j = Some n1 -> exists es n2, @simple_backOutput RNum o n1 (nth j e 0) = Ok (es, n2) /\ nth_error ns2 j = Some n2.
Hypothesis Htrain : forall ns1 e, @body_train RNum o (mk ns1) e = bind (each (trained (@simple_train RNum o) e) ns1) (fun p => Ok (mk (snd p))).

Lemma plain_values ns' y outs : (forall j n, nth_error ns' j = Some n -> nth_error outs j = Some (@neuron_value RNum n (reads y (rows j)))) -> plain_ok k rows ns' -> List.length outs = List.length ns' ->
  outs = map (fun u => uval u y) (pus rows ns').
Proof.
  intros HV Hp Hl. apply nth_error_ext. intros j. rewrite nth_error_map, pus_at. destruct (nth_error ns' j) as [n|] eqn:E.
  - rewrite (HV j n E). cbn [option_map]. destruct (Hp j n E) as (W & _ & Hr & _). now rewrite value_pu.
  - cbn [option_map]. apply nth_error_None. apply nth_error_None in E. rl.
Qed.
Lemma plain_out ns' y : List.length ns' = List.length ns -> plain_ok k rows ns' -> List.length y = k ->
  exists l', @layer_output RNum (mkLayer k (mk ns') []) y false = Ok (map (fun u => uval u y) (pus rows ns'), l').
Proof.
  intros Hl Hp Hy. destruct (Hfwd ns' y false Hl Hp Hy) as (outs & ns1 & E & Lo & HV & _). unfold layer_output. cbn [l_body l_opts l_in]. rewrite E. cbn [bind opts_testing ofold].
  rewrite (plain_values ns' y outs HV Hp) by rl. eauto.
Qed.
Lemma plain_upd_layer l2 e ns2 : l2 = mkLayer k (mk ns2) [] ->
  (forall j n, nth_error ns j = Some n -> exists n2, nth_error ns2 j = Some n2 /\ upd o (nth j e 0 * @actd RNum (n_act n) (@neuron_sum RNum n (reads z (rows j)))) (reads z (rows j)) n n2 /\ List.length (n_w n2) = List.length (n_w n)) ->
  unit_upd o (mkLayer k (mk ns) []) (pus rows ns) z e l2.
Proof.
  intros -> H j n pu Hj Hp. rewrite Hunit in Hj. rewrite pus_at, Hj in Hp. injection Hp as <-. destruct (H j n Hj) as (n2 & H2 & U & Lw). exists n2. rewrite Hunit. split; [exact H2|].
  destruct (Hok j n Hj) as (W & _ & Hr & _). rewrite sum_pu in U by auto. apply upd_unit in U as [Ui Uw]. split; [exact Ui|]. split; [exact Lw|]. exact Uw.
Qed.
Lemma plain_smooth : out_smooth (mkLayer k (mk ns) []) z -> forall j n, nth_error ns j = Some n -> usmooth (pu_of n (rows j)) z.
Proof.
  intros Hs j n Hj. destruct (Hfwd ns z false eq_refl Hok Hz) as (outs & ns1 & E & Lo & HV & [LF HF]).
  assert (E1 : @layer_output RNum (mkLayer k (mk ns) []) z false = Ok (outs, mkLayer k (mk ns1) [])). { unfold layer_output. cbn [l_body l_opts l_in]. rewrite E. reflexivity. }
  destruct (Hs _ _ E1 j (fed (reads z (rows j)) n)) as [A B]; [rewrite Hunit; now apply HF|]. cbn [fed set_sum n_act n_sum] in A, B. destruct (Hok j n Hj) as (W & _ & Hr & _).
  rewrite sum_pu in B by auto. split; [exact A|exact B].
Qed.
Lemma plain_good : out_smooth (mkLayer k (mk ns) []) z ->
  good o (mkLayer k (mk ns) []) z (fun y => map (fun u => uval u y) (pus rows ns)) (List.length (pus rows ns)) (uL (pus rows ns) z).
Proof.
  intros Hs0. pose proof (plain_smooth Hs0) as Hs. apply units_good.
  - apply Forall_forall. intros u Hu. apply pus_in in Hu as (j & n & Hj & ->). destruct (Hok j n Hj) as (W & _ & Hr & Hf). rewrite Hz. split; [exact Hf|]. cbn [pu_of u_row u_w]. destruct W as (HL & _). change (@F RNum) with R in *. lia.
  - apply Forall_forall. intros u Hu. apply pus_in in Hu as (j & n & Hj & ->). now apply Hs.
  - intros n u Hu. rewrite Hunit in Hu. exists (pu_of u (rows n)). rewrite pus_at, Hu. split; [reflexivity|]. split; [reflexivity|]. apply (Hok n u Hu).
  - intros y Hy. apply plain_out; auto. lia.
  - intros n pu q t Hp Hq. rewrite pus_at in Hp. destruct (nth_error ns n) as [u|] eqn:En; [|discriminate]. injection Hp as <-. cbn [pu_of u_row] in Hq.
    destruct (Hok n u En) as (_ & _ & Hr & _). rewrite Hchange. rewrite <- (pus_change rows ns n q t u En) by lia. apply plain_out; [apply modify_length|now apply plain_change|exact Hz].
  - intros rand reset. destruct (Hfwd ns z reset eq_refl Hok Hz) as (outs & ns1 & E & Lo & HV & HF). exists (mkLayer k (mk ns1) []).
    split. { unfold layer_outputForTraining. cbn [l_body l_opts l_in]. rewrite E. cbn [bind opts_training]. rewrite (plain_values ns z outs HV Hok) by rl. reflexivity. }
    split. { unfold getNumberOfNeurons, layer_weights. cbn [l_body]. rewrite !Hweights, !map_length. apply HF. }
    intros e He. rewrite pus_length in He. split.
    + destruct (Hback ns1 e HF He) as (r & ns2 & Eb & Lr & Hin & H2). exists r, (mkLayer k (mk ns2) []). split. { unfold layer_backOutput. cbn [l_body l_opts l_in]. change (opts_back _ [] e) with e. rewrite Eb. reflexivity. }
      split; [lia|]. split.
      * intros u Hu. rewrite (Hin u ltac:(lia)), Rsum_seq, pus_length. apply sumn_ext. intros j Hj. unfold uL.
        destruct (nth_error ns j) as [n|] eqn:En; [|apply nth_error_None in En; lia].
        assert (Ej : nth_error (map (fun u0 => @actd RNum (u_a u0) (usum u0 z) * inner (reads u (u_row u0)) (u_w u0)) (pus rows ns)) j = Some (@actd RNum (n_act n) (usum (pu_of n (rows j)) z) * inner (reads u (rows j)) (n_w n))) by (rewrite nth_error_map, pus_at, En; reflexivity).
        rewrite (nth_error_nth _ _ _ Ej). destruct (Hok j n En) as (W & _ & Hr & _). rewrite sum_pu by auto. apply Rmult_assoc.
      * apply (plain_upd_layer _ e ns2 eq_refl). intros j n Hj. destruct HF as [_ HF]. destruct (H2 j _ (HF j n Hj)) as (es & n2 & Es & Hn2). exists n2. split; [exact Hn2|].
        destruct (Hok j n Hj) as (W & Hb & Hr & _). destruct (simple_step o n (reads z (rows j)) (nth j e 0) W Hb) as ((n' & E' & U & Lw) & _); [now rewrite reads_length|]. rewrite E' in Es. injection Es as _ <-. split; [exact U|exact Lw].
    + destruct (each_ok (trained (@simple_train RNum o) e) ns1) as (us & ns3 & E3).
      { intros j a Ha. destruct HF as [LF HF]. assert (Hj : (j < List.length ns)%nat) by (rewrite <- LF; apply nth_error_Some; congruence). destruct (nth_error ns j) as [n|] eqn:En; [|apply nth_error_None in En; lia].
        rewrite (HF j n En) in Ha. injection Ha as <-. destruct (Hok j n En) as (W & Hb & Hr & _). destruct (simple_step o n (reads z (rows j)) (nth j e 0) W Hb) as (_ & n' & E' & _); [now rewrite reads_length|].
        exists tt, n'. unfold trained. change (@F RNum) with R in *. rewrite (lget_nth e j 0) by lia. cbn [bind]. rewrite E'. reflexivity. }
      exists (mkLayer k (mk ns3) []). split. { unfold layer_train. cbn [l_body l_opts l_in]. change (opts_back _ [] e) with e. rewrite Htrain, E3. reflexivity. }
      apply each_inv in E3 as (_ & _ & Hj3). apply (plain_upd_layer _ e ns3 eq_refl). intros j n Hj. destruct HF as [LF HF]. destruct (Hj3 j _ (HF j n Hj)) as (b & n3 & _ & Hn3 & E3). exists n3. split; [exact Hn3|].
      assert (Hlt : (j < List.length ns)%nat) by (apply nth_error_Some; congruence). unfold trained in E3. change (@F RNum) with R in *. rewrite (lget_nth e j 0) in E3 by lia. cbn [bind] in E3. apply bind_Ok_inv in E3 as (n3' & E3 & Q). injection Q as _ ->.
      destruct (Hok j n Hj) as (W & Hb & Hr & _). destruct (simple_step o n (reads z (rows j)) (nth j e 0) W Hb) as (_ & n' & E' & U & Lw); [now rewrite reads_length|]. rewrite E' in E3. injection E3 as <-. split; [exact U|exact Lw].
Qed.
End Plain.

(* ---------- fully connected ---------- *)
Lemma full_good o k (ns : list RNeu) z : Forall (fun n => wf_neuron 1 n /\ n_in n = k /\ n_batch n = 1%nat) ns -> List.length z = k ->
  out_smooth (mkLayer k (BFull ns) []) z ->
  good o (mkLayer k (BFull ns) []) z (fun y => map (fun u => uval u y) (pus (fun _ => all_cells k) ns)) (List.length (pus (fun _ => all_cells k) ns)) (uL (pus (fun _ => all_cells k) ns) z).
Proof.
  intros H Hz Hs. destruct (all_cells_ok k) as [Hc Hcl].
  assert (Hok : forall ns, Forall (fun n => wf_neuron 1 n /\ n_in n = k /\ n_batch n = 1%nat) ns -> plain_ok k (fun _ => all_cells k) ns).
  { intros ns' H' j n Hj. rewrite Forall_forall in H'. destruct (H' n (nth_error_In _ _ Hj)) as (A & B & C). split; [exact A|]. split; [exact C|]. split; [lia|exact Hc]. }
  apply (plain_good o k (fun _ => all_cells k) BFull ns z); auto.
  - intros ns' y reset Hl Hp Hy. exists (layer_val ns' y), (map (fed y) ns').
    assert (H' : Forall (fun n => wf_neuron 1 n /\ n_in n = k /\ n_batch n = 1%nat) ns').
    { apply Forall_of_nth. intros j n Hj. destruct (Hp j n Hj) as (A & B & C & _). split; [exact A|]. split; [lia|exact B]. }
    split; [now apply (body_full_fed k)|]. split; [rewrite layer_val_length; exact Hl|]. split.
    + intros j n Hj. unfold layer_val. rewrite nth_error_map, Hj, reads_all by exact Hy. reflexivity.
    + split; [apply map_length|]. intros j n Hj. rewrite nth_error_map, Hj, reads_all by exact Hy. reflexivity.
  - intros ns1 e [LF HF] He. cbn [body_back].
    set (f := fun (n : nat) neuron => bind (@lget R e n) (fun e0 => @simple_backOutput RNum o neuron e0)).
    assert (Hf : forall j n, nth_error ns j = Some n -> exists n', f j (fed z n) = Ok (map (fun w => nth j e 0 * @actd RNum (n_act n) (@neuron_sum RNum n z) * w) (firstn k (n_w n)), n')).
    { intros j n Hj. assert (Hlt : (j < List.length ns)%nat) by (apply nth_error_Some; congruence). rewrite Forall_forall in H. destruct (H n (nth_error_In _ _ Hj)) as (W & Hi & Hb).
      destruct (simple_step o n z (nth j e 0) W Hb) as ((n' & E & _) & _); [change (@F RNum) with R in *; lia|]. exists n'. unfold f. cbv beta. change (@F RNum) with R in *. rewrite (lget_nth e j 0) by lia. cbn [bind]. rewrite E. now rewrite Hi. }
    assert (HF' : forall j a, nth_error ns1 j = Some a -> exists n, nth_error ns j = Some n /\ a = fed z n).
    { intros j a Ha. assert (Hlt : (j < List.length ns)%nat) by (rewrite <- LF; apply nth_error_Some; congruence). destruct (nth_error ns j) as [n|] eqn:En; [|apply nth_error_None in En; lia].
      exists n. split; [reflexivity|]. specialize (HF j n En). rewrite reads_all in HF by exact Hz. congruence. }
    destruct (each_ok f ns1) as (es & ns2 & E). { intros j a Ha. destruct (HF' j a Ha) as (n & Hn & ->). destruct (Hf j n Hn) as (n' & E). eauto. }
    match goal with |- context [each ?g ns1] => change (each g ns1) with (each f ns1) end. rewrite E. cbn [bind]. apply each_inv in E as (L1 & L2 & Hj).
    assert (Hes : forall j n, nth_error ns j = Some n -> nth_error es j = Some (map (fun w => nth j e 0 * @actd RNum (n_act n) (@neuron_sum RNum n z) * w) (firstn k (n_w n)))).
    { intros j n Hn. pose proof (HF j n Hn) as Hn1. rewrite reads_all in Hn1 by exact Hz. destruct (Hj j _ Hn1) as (b & a' & Eb & _ & Efb). destruct (Hf j n Hn) as (n' & Ef). rewrite Ef in Efb. injection Efb as <- _. exact Eb. }
    destruct (add_rows_all k es) as (r & Er & Lr & Hin).
    { apply Forall_of_nth. intros j x Hx. assert (Hlt : (j < List.length ns)%nat). { rewrite <- LF, <- L1. apply nth_error_Some. intros H0. pose proof (eq_trans (eq_sym Hx) H0). discriminate. }
      destruct (nth_error ns j) as [n|] eqn:En; [|apply nth_error_None in En; lia]. pose proof (eq_trans (eq_sym Hx) (Hes j n En)) as Q. injection Q as ->. rewrite Forall_forall in H. destruct (H n (nth_error_In _ _ En)) as ((HL & _) & Hi & _).
      rewrite map_length, firstn_length. change (@F RNum) with R in *. lia. }
    exists r, ns2. change (@F RNum) with R in *. rewrite Er. cbn [bind]. split; [reflexivity|]. split; [exact Lr|]. split.
    + intros u Hu. rewrite (Hin u Hu), Rsum_seq, (Rsum_nth es (fun x => inner x u) []). replace (List.length es) with (List.length ns) by lia. apply sumn_ext. intros j Hlt.
      destruct (nth_error ns j) as [n|] eqn:En; [|apply nth_error_None in En; lia]. rewrite (nth_error_nth _ _ _ (Hes j n En)). rewrite inner_scaled, !reads_all by assumption. f_equal. rewrite <- Hu. apply inner_firstn.
    + intros j n1 Hn1. destruct (Hj j n1 Hn1) as (b & a' & _ & Ea & Efb). unfold f in Efb. cbv beta in Efb. assert (Hlt : (j < List.length ns)%nat) by (rewrite <- LF; apply nth_error_Some; congruence).
      change (@F RNum) with R in *. rewrite (lget_nth e j 0) in Efb by lia. cbn [bind] in Efb. eauto.
  - intros ns1 e. cbn [body_train]. destruct (each _ ns1) as [[us n3]| |]; reflexivity.
Qed.
