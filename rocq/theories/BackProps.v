(* C31: the backward pass of filter layers. *)
From Coq Require Import Reals Lra SpecFloat.
From Verif Require Import Base Num Witness NumOrder ActModel ActProofs NeuronModel LayerModel NetModel NeuronProofs LayerProofs GradProofs SafeProofs SafeLayers FactoryModel FactorySpec FactoryProofs
  SafeNet BuildProofs FilterSpec FilterProofs HistProofs FilterProps FactoryProps LocalProps LOptSpec LOptProps BackSpec.
Local Open Scope nat_scope.

(* ---------- inner products ---------- *)
Lemma inner_sumn (a : list R) : forall b, List.length a <= List.length b -> inner a b = sumn (List.length a) (fun i => (nth i a 0 * nth i b 0)%R).
Proof.
  induction a as [|x a IH]; intros [|y b] H; cbn in H; try lia; try reflexivity. unfold inner in *. cbn [combine map Rsum fst snd List.length]. rewrite IH by lia. rewrite sumn_S. reflexivity.
Qed.
Lemma Rsum_sumn n (f : nat -> R) : Rsum (map f (seq 0 n)) = sumn n f.
Proof.
  revert f. induction n as [|n IH]; intros f; [reflexivity|]. rewrite sumn_S. cbn [seq map Rsum]. rewrite <- seq_shift, map_map, IH. reflexivity.
Qed.
Lemma inner_replace (e u : list R) : forall i v, i < List.length e -> List.length u = List.length e -> inner (replace e i (nth i e 0 + v)%R) u = (inner e u + v * nth i u 0)%R.
Proof.
  revert u. induction e as [|x e IH]; intros [|y u] i v Hi Hu; cbn in Hi, Hu; try lia. destruct i as [|i]; cbn [replace nth]; unfold inner in *; cbn [combine map Rsum fst snd]; [lra|]. rewrite IH by lia. lra.
Qed.
Lemma inner_zero k (u : list R) : inner (repeat 0%R k) u = 0%R.
Proof. revert u. induction k as [|k IH]; intros [|y u]; try reflexivity. unfold inner in *. cbn. rewrite IH. lra. Qed.
Lemma scatter_inner (test : bool) lo k row (errs err u : list R) r : Forall (fun i => lo <= i < Z.of_nat k)%Z row -> (test = false -> (0 <= lo)%Z) ->
  List.length err <= List.length row -> List.length errs = k -> List.length u = k -> @scatter RNum test row errs err = Ok r ->
  inner r u = (inner errs u + sumn (List.length err) (fun e => nth e err 0 * @valueAt RNum u (nth e row 0%Z)))%R.
Proof.
  intros Hr Ht Hl He Hu. unfold scatter. assert (G : forall n st (errs r : list R), List.length errs = k -> st + n <= List.length err ->
    @ofold nat (list R) (fun errs e => bind (lget row e) (fun idx => bind (lget err e) (fun v => if test && negb (0 <=? idx)%Z then Ok errs else bind (lgetZ errs idx) (fun a => lsetZ errs idx (@fadd RNum a v))))) (seq st n) errs = Ok r ->
    inner r u = (inner errs u + sumn n (fun e => nth (st + e) err 0 * @valueAt RNum u (nth (st + e) row 0%Z)))%R).
  { induction n as [|n IH]; intros st es r0 Les Hst E; cbn [seq ofold] in E; [injection E as ->; cbn; lra|].
    rewrite (lget_nth row st 0%Z) in E by lia. cbn [bind] in E. rewrite (lget_nth err st 0%R) in E by lia. cbn [bind] in E. rewrite sumn_S, Nat.add_0_r.
    set (i := nth st row 0%Z) in *. rewrite Forall_forall in Hr. assert (Hi : (lo <= i < Z.of_nat k)%Z) by (apply Hr, nth_In; lia).
    assert (Q : forall es', List.length es' = k -> @ofold nat (list R) (fun errs e => bind (lget row e) (fun idx => bind (lget err e) (fun v => if test && negb (0 <=? idx)%Z then Ok errs else bind (lgetZ errs idx) (fun a => lsetZ errs idx (@fadd RNum a v))))) (seq (S st) n) es' = Ok r0 ->
      inner r0 u = (inner es' u + sumn n (fun e => nth (st + S e) err 0 * @valueAt RNum u (nth (st + S e) row 0%Z)))%R).
    { intros es' L' E'. rewrite (IH (S st) es' r0 L' ltac:(lia) E'). f_equal. apply sumn_ext. intros e _. now rewrite <- Nat.add_succ_comm. }
    unfold valueAt at 1. destruct (Z.leb_spec 0 i) as [H0|H0].
    - rewrite Bool.andb_false_r in E. rewrite (lgetZ_ok _ _ 0%R) in E by lia. cbn [bind] in E. rewrite lsetZ_ok in E by lia. cbn [bind] in E. apply Q in E; [|now rewrite replace_length].
      rewrite E. change (@fadd RNum) with Rplus. rewrite (inner_replace es u (Z.to_nat i)) by lia. change (@F RNum) with R in *. replace (nth (Z.to_nat i) u (@fzero RNum)) with (nth (Z.to_nat i) u 0%R) by (f_equal; now rewrite fzero_R). lra.
    - destruct test; [|specialize (Ht eq_refl); lia]. cbn [andb negb] in E. cbn [bind] in E. apply Q in E; [|exact Les]. rewrite E, fzero_R. lra. }
  intros E. exact (G (List.length err) 0 errs r He ltac:(lia) E).
Qed.
Lemma linear_dotp (w x : list R) : List.length x <= List.length w -> linear_part w x = @dotp RNum x w.
Proof.
  intros H. rewrite dotp_R by exact H. unfold linear_part. revert w H. induction x as [|a x IH]; intros [|b w] H; cbn in H; try lia; try reflexivity.
  unfold inner in *. cbn [combine map Rsum fst snd List.length]. rewrite IH by lia. rewrite sumn_S. cbn [nth]. lra.
Qed.
Lemma pair_inner (w : list R) (row : list Z) (u : list R) (delta : R) k : List.length row = k -> List.length w = k + 1 ->
  sumn k (fun e => nth e (map (fun a => delta * a)%R (firstn k w)) 0 * @valueAt RNum u (nth e row 0%Z))%R = (delta * linear_part w (map (@valueAt RNum u) row))%R.
Proof.
  intros Hr Hw. rewrite linear_dotp by (rewrite map_length; lia). rewrite dotp_R by (rewrite map_length; lia). rewrite map_length, Hr, <- sumn_scal. apply sumn_ext. intros i Hi.
  rewrite (nth_indep _ _ (delta * 0)%R) by (rewrite map_length, firstn_length; lia). rewrite (map_nth (fun a => delta * a)%R). rewrite (nth_indep (map _ row) _ (@valueAt RNum u 0%Z)) by (rewrite map_length; lia). rewrite map_nth.
  rewrite nth_firstn_lt by lia. change (@F RNum) with R. ring.
Qed.

Definition delta_of (n : @Neuron RNum) (e : R) : R := (e * @actd RNum (n_act n) (n_sum n))%R.
Lemma ofold_scatter k (u : list R) (es : list (list Z * list R)) : List.length u = k -> Forall (fun re => List.length (snd re) <= List.length (fst re) /\ Forall (fun i => -1 <= i < Z.of_nat k)%Z (fst re)) es ->
  forall (errs r : list R), List.length errs = k -> @ofold _ (list R) (fun errs re => @scatter RNum true (fst re) errs (snd re)) es errs = Ok r ->
  List.length r = k /\ inner r u = (inner errs u + Rsum (map (fun re => sumn (List.length (snd re)) (fun e => nth e (snd re) 0 * @valueAt RNum u (nth e (fst re) 0%Z))%R) es))%R.
Proof.
  intros Hu H. induction H as [|[row err] t [Hl Hf] Ht IH]; intros errs r He E; cbn [ofold] in E.
  - injection E as ->. split; [exact He|]. cbn. lra.
  - cbn [fst snd] in *. destruct (@scatter_ok RNum true (-1)%Z k row errs err Hf ltac:(discriminate) Hl He) as (r1 & E1 & L1). rewrite E1 in E. cbn [bind] in E.
    destruct (IH r1 r L1 E) as [L2 E2]. split; [exact L2|]. rewrite E2. cbn [map Rsum fst snd]. rewrite (scatter_inner true (-1)%Z k row errs err u r1 Hf ltac:(discriminate) Hl He Hu E1). lra.
Qed.
Lemma loc_adjoint two o k (f : Filter) (ns : list (@Neuron RNum)) (e : list R) : rowsOK (-1) k (f_nin f) (f_index f) -> 0 < f_filters f -> List.length ns = List.length (f_index f) * f_filters f ->
  f_kpf f = List.length (f_index f) -> Forall (wf_plain (f_nin f)) ns -> List.length ns <= List.length e ->
  exists r ns', @loc_back RNum two o k f ns e = Ok (r, ns') /\
  transposes k (List.length ns) (map n_w ns) (fun j u => map (@valueAt RNum u) (nth (if two then j / f_filters f else j mod f_kpf f) (f_index f) []))
    (fun j => match nth_error ns j with Some n => delta_of n (nth j e 0%R) | None => 0%R end) r.
Proof.
  intros HR HF Hn Hkp Hw He. destruct (loc_back_wf two o k f ns e HR HF Hn Hkp Hw He) as (r & ns' & E & Lr & _ & _). exists r, ns'. split; [exact E|]. unfold loc_back in E.
  apply bind_Ok_inv in E as ([es ns1] & Ee & E). apply bind_Ok_inv in E as (r1 & Er & E). injection E as -> ->. pose proof (each_inv _ _ _ _ Ee) as (L1 & L2 & Hj).
  set (idx := fun j => if two then j / f_filters f else j mod f_kpf f).
  assert (Hidx : forall j, j < List.length ns -> idx j < List.length (f_index f)).
  { intros j H. unfold idx. destruct two; [apply Nat.div_lt_upper_bound; lia|]. rewrite Hkp in *. apply Nat.mod_upper_bound. intros H0. rewrite H0 in Hn. lia. }
  assert (V : forall j n, nth_error ns j = Some n -> exists row err, nth_error es j = Some (row, err) /\ List.length err = f_nin f /\ (f_nin f = 0 \/ row = nth (idx j) (f_index f) []) /\
     List.length row = f_nin f /\ Forall (fun i => -1 <= i < Z.of_nat k)%Z row /\ err = map (fun a => delta_of n (nth j e 0%R) * a)%R (firstn (f_nin f) (n_w n))).
  { intros j n Hjn. assert (Hjl : j < List.length ns) by (apply nth_error_Some; congruence). destruct (Hj j n Hjn) as (re & n' & Hre & _ & En). change (@F RNum) with R in *. rewrite (lget_nth e j 0%R) in En by lia. cbn [bind] in En.
    pose proof (Forall_nth_error _ _ _ _ Hw Hjn) as [Wn Hin]. destruct (simple_backOutput_ok o n (nth j e 0%R) Wn) as (n2 & Eb & _ & _). rewrite Eb in En. cbn [bind] in En. cbv zeta in En. rewrite Hin in En.
    destruct (_ =? 0) in En; [discriminate|]. set (err := map _ _) in En. assert (Le : List.length err = f_nin f). { unfold err. rewrite map_length, firstn_length. destruct Wn as (HL & _). lia. }
    specialize (Hidx j Hjl). assert (R0 : forall row, In row (f_index f) -> List.length row = f_nin f /\ Forall (fun i => -1 <= i < Z.of_nat k)%Z row) by (intros row; apply rows_in; exact HR).
    change (@F RNum) with R in *. destruct (Nat.eqb_spec (List.length err) 0) as [H0|H0].
    - cbn [bind] in En. injection En as <- _. exists [], err. split; [exact Hre|]. split; [exact Le|]. split; [left; lia|]. split; [cbn; lia|]. split; [constructor|reflexivity].
    - fold (idx j) in En. rewrite (lget_nth _ _ []) in En by lia. cbn [bind] in En. injection En as <- _. destruct (R0 (nth (idx j) (f_index f) [])) as [Hl Hf]; [now apply nth_In|].
      exists (nth (idx j) (f_index f) []), err. split; [exact Hre|]. split; [exact Le|]. split; [now right|]. split; [exact Hl|]. split; [exact Hf|reflexivity]. }
  split; [exact Lr|]. intros u Hu. destruct (ofold_scatter k u es Hu) with (errs := repeat 0%R k) (r := r) as [_ Q].
  - change (@F RNum) with R in *. apply Forall_of_nth. intros j [row err] Hre. assert (Hjl : j < List.length es) by (apply nth_error_Some; rewrite Hre; discriminate). destruct (nth_error ns j) as [n|] eqn:En; [|apply nth_error_None in En; lia].
    destruct (V j n En) as (row' & err' & Hre' & A1 & A2 & A3 & A4 & A5). rewrite Hre in Hre'. injection Hre' as <- <-. cbn [fst snd]. split; [lia|exact A4].
  - apply repeat_length.
  - change (@F RNum) with R in *. rewrite <- fzero_R. exact Er.
  - change (@F RNum) with R in *. rewrite Q, inner_zero, Rplus_0_l. rewrite <- L1. f_equal. apply nth_error_ext. intros j. rewrite !nth_error_map. destruct (Nat.lt_ge_cases j (List.length es)) as [Hjl|Hjl].
    2: { rewrite !(proj2 (nth_error_None _ _)) by (rewrite ?seq_length; lia). reflexivity. }
    destruct (nth_error ns j) as [n|] eqn:En; [|apply nth_error_None in En; lia]. destruct (V j n En) as (row & err & Hre & A1 & A2 & A3 & A4 & A5). rewrite Hre. rewrite (nth_error_nth' _ 0) by (rewrite seq_length; lia). rewrite seq_nth by lia. cbn [option_map fst snd plus]. rewrite En. f_equal.
    assert (En2 : nth j (map n_w ns) [] = n_w n) by (apply nth_error_nth; rewrite nth_error_map, En; reflexivity). change (@F RNum) with R in *. rewrite En2. rewrite A1, A5.
    pose proof (Forall_nth_error _ _ _ _ Hw En) as [(HL & _) Hin]. change (@F RNum) with R in *. rewrite pair_inner by lia. f_equal. destruct A2 as [A2| ->]; [|reflexivity].
    assert (row = []) as -> by (destruct row; [reflexivity|cbn in A3; lia]). fold (idx j). assert (In (nth (idx j) (f_index f) []) (f_index f)) as Hin2 by (apply nth_In, Hidx; lia).
    destruct (rows_in _ _ _ _ _ HR Hin2) as [Hl _]. destruct (nth (idx j) (f_index f) []); [reflexivity|cbn in Hl; lia].
Qed.

Lemma loc_sums {N : Num} k f (ns : list Neuron) (x o : list F) ns' : rowsOK (-1) k (f_nin f) (f_index f) -> 0 < f_filters f -> List.length ns = List.length (f_index f) * f_filters f -> List.length x = k ->
  loc_output f ns x = Ok (o, ns') -> List.length ns' = List.length ns /\
  forall j n, nth_error ns j = Some n -> exists last, nth_error ns' j = Some (set_sum n (neuron_sum n (map (valueAt x) (nth (j / f_filters f) (f_index f) []))) last).
Proof.
  intros HR HF Hn Hx E. unfold loc_output in E. cbv zeta in E. rewrite <- Hn, Nat.ltb_irrefl, firstn_all, skipn_all in E.
  rewrite (omap_all_ok (locWindow f x) (fun row => map (valueAt x) row) (f_index f)) in E by (intros row Hin; destruct (rows_in _ _ _ _ _ HR Hin) as [Hl Hr]; now apply (locWindow_ok f k)).
  cbn [bind] in E. apply bind_Ok_inv in E as ([o1 ns1] & Ee & E). apply bind_Ok_inv in E as (? & _ & E). injection E as _ <-. rewrite app_nil_r.
  pose proof (each_inv _ _ _ _ Ee) as (L1 & L2 & Hj). split; [exact L2|]. intros j n Hjn. destruct (Hj j n Hjn) as (b & n' & _ & -> & En).
  assert (Hq : j / f_filters f < List.length (f_index f)) by (apply Nat.div_lt_upper_bound; [lia|]; assert (j < List.length ns) by (apply nth_error_Some; congruence); lia).
  rewrite (lget_nth _ _ []) in En by (rewrite map_length; lia). cbn [bind] in En. apply simple_output_inv in En as (_ & last & _ & ->). exists last. apply (f_equal (fun y => Some (set_sum n (neuron_sum n y) last))).
  rewrite (nth_indep _ _ (map (valueAt x) [])) by (rewrite map_length; lia). now rewrite map_nth.
Qed.
Lemma transposes_ext k m w reads reads' d d' r : transposes k m w reads d r -> (forall j u, j < m -> reads j u = reads' j u) -> (forall j, j < m -> d j = d' j) -> transposes k m w reads' d' r.
Proof.
  intros [L H] Hr Hd. split; [exact L|]. intros u Hu. rewrite (H u Hu). f_equal. apply map_ext_in. intros j Hj. apply in_seq in Hj. rewrite Hr, Hd by lia. reflexivity.
Qed.
Lemma sum_error (n : @Neuron RNum) (x : list R) last e : List.length x <= List.length (n_w n) -> delta_of (@set_sum RNum n (@neuron_sum RNum n x) last) e = neuron_error (n_act n) (n_bias n) (n_w n) x e.
Proof. intros H. unfold delta_of, neuron_error. rewrite linear_dotp by exact H. unfold set_sum, neuron_sum. cbn [n_act n_sum]. rewrite fzero_R. reflexivity. Qed.
Lemma loc_layer (l : @Layer RNum) kd (f : Filter) mi ns k a b opt (v e : list R) reset o l1 : l_body l = BFilter kd (set_maxIndex f mi) ns -> (kd = Loc1D \/ kd = Loc2D) -> l_opts l = [] -> l_in l = k ->
  rowsOK (-1) k (f_nin f) (f_index f) -> 0 < f_filters f -> f_kernels f = List.length ns -> List.length ns = List.length (f_index f) * f_filters f -> f_kpf f = List.length (f_index f) -> Forall (wf_plain (f_nin f)) ns ->
  map nset ns = repeat (a, b) (List.length ns) -> List.length v = k -> List.length e = List.length ns -> layer_output l v reset = Ok (o, l1) ->
  exists r l2, layer_backOutput opt l1 e = Ok (r, l2) /\
  transposes k (List.length ns) (layer_weights l) (fun j u => map (@valueAt RNum u) (nth (match kd with Loc2D => j / f_filters f | _ => j mod f_kpf f end) (f_index f) []))
    (fun j => neuron_error a b (nth j (layer_weights l) []) (map (@valueAt RNum v) (nth (j / f_filters f) (f_index f) [])) (nth j e 0%R)) r.
Proof.
  intros Eb Hkd Ho Hi HR HF Hkn Hn Hkp Hw HS Hv He E. set (f1 := set_maxIndex f mi) in *. unfold layer_output in E. rewrite Eb, Ho in E. cbn [opts_testing ofold] in E.
  assert (E' : exists ns1, loc_output f1 ns v = Ok (o, ns1) /\ l1 = @mkLayer RNum (l_in l) (BFilter kd f1 ns1) []).
  { destruct Hkd as [-> | ->]; cbn [body_output] in E; destruct (loc_output f1 ns v) as [[o1 ns1]| |]; cbn [bind] in E; try discriminate; injection E as <- <-; eauto. }
  clear E. destruct E' as (ns1 & E & ->). destruct (loc_sums k f1 ns v o ns1 HR HF Hn Hv E) as [L1 HV].
  destruct (loc_output_wf k f1 ns v (List.length ns) HR HF Hn Hkn eq_refl Hw Hv) as (o' & ns' & E' & _ & W1 & EW). rewrite E in E'. injection E' as <- <-.
  destruct (loc_adjoint (match kd with Loc2D => true | _ => false end) opt k f1 ns1 e HR HF (eq_trans L1 Hn) Hkp W1 ltac:(change (@F RNum) with R in *; lia)) as (r & ns2 & Er & HT).
  exists r. unfold layer_backOutput. cbn [l_body l_opts l_in layer_weights]. rewrite Hi.
  assert (Eb2 : exists l2, bind (body_back opt k (BFilter kd f1 ns1) (opts_back (body_weights (BFilter kd f1 ns1)) [] e)) (fun eb => let (e0, b0) := eb in Ok (e0, @mkLayer RNum k b0 [])) = Ok (r, l2)).
  { destruct Hkd as [-> | ->]; cbn [body_back opts_back fold_left]; rewrite Er; cbn [bind]; eauto. }
  destruct Eb2 as (l2 & Eb2). exists l2. split; [exact Eb2|]. unfold layer_weights. rewrite Eb. cbn [body_weights]. rewrite L1, EW in HT. eapply transposes_ext; [exact HT| |].
  - intros j u Hj. destruct Hkd as [-> | ->]; reflexivity.
  - intros j Hj. destruct (nth_error ns j) as [n|] eqn:En; [|apply nth_error_None in En; lia]. destruct (HV j n En) as (last & ->).
    pose proof (Forall_nth_error _ _ _ _ Hw En) as [(HL & _) Hin]. assert (Hq : j / f_filters f < List.length (f_index f)) by (apply Nat.div_lt_upper_bound; lia).
    destruct (rows_in _ _ _ _ (nth (j / f_filters f) (f_index f) []) HR) as [Hl _]; [now apply nth_In|].
    rewrite sum_error by (rewrite map_length; cbn [f_index f_filters set_maxIndex f1]; change (@F RNum) with R in *; lia).
    assert (En2 : nth j (map n_w ns) [] = n_w n) by (apply nth_error_nth; rewrite nth_error_map, En; reflexivity). change (@F RNum) with R in *. rewrite En2. destruct (@settings_at RNum ns a b _ HS j n En) as [-> ->]. reflexivity.
Qed.

Lemma ofold_ext_all {A S} (f g : S -> A -> outcome S) l : (forall s a, f s a = g s a) -> forall s, ofold f l s = ofold g l s.
Proof. intros H. induction l as [|a t IH]; intros s; cbn [ofold]; [reflexivity|]. rewrite H. destruct (g s a); cbn [bind]; auto. Qed.
Lemma conv_one_adjoint o k (f : Filter) (ns : list (@Neuron RNum)) (e : list R) row : f_index f = [row] -> rowsOK 0 k (f_nin f) (f_index f) -> Forall (wf_plain (f_nin f)) ns -> List.length ns <= List.length e ->
  exists r ns', @conv_back RNum o k f ns e = Ok (r, ns') /\
  transposes k (List.length ns) (map n_w ns) (fun j u => map (@valueAt RNum u) row) (fun j => match nth_error ns j with Some n => delta_of n (nth j e 0%R) | None => 0%R end) r.
Proof.
  intros Hrow HR Hw He. destruct (conv_back_wf o k f ns e (List.length ns) HR ltac:(rewrite Hrow; cbn; lia) Hw He) as (r & ns' & E & Lr & _ & _). exists r, ns'. split; [exact E|]. unfold conv_back in E. rewrite Hrow in E, HR. cbn [ofold] in E.
  destruct (Forall_inv HR) as [Hl Hf]. apply bind_Ok_inv in E as ([[r1 i1] ns1] & E1 & E). injection E as -> ->. apply bind_Ok_inv in E1 as ([[r2 i2] ns2] & E1 & E2). injection E2 as -> -> ->.
  apply bind_Ok_inv in E1 as ([es ns3] & Ee & E1). apply bind_Ok_inv in E1 as (r3 & Er & E1). injection E1 as -> <- ->. pose proof (each_inv _ _ _ _ Ee) as (L1 & L2 & Hj).
  assert (V : forall j n, nth_error ns j = Some n -> nth_error es j = Some (map (fun a => delta_of n (nth j e 0%R) * a)%R (firstn (f_nin f) (n_w n)))).
  { intros j n Hjn. assert (Hjl : j < List.length ns) by (apply nth_error_Some; congruence). destruct (Hj j n Hjn) as (re & n' & Hre & _ & En). change (@F RNum) with R in *. rewrite (lget_nth e _ 0%R) in En by lia. cbn [bind plus] in En.
    pose proof (Forall_nth_error _ _ _ _ Hw Hjn) as [Wn Hin]. destruct (simple_backOutput_ok o n (nth j e 0%R) Wn) as (n2 & Eb & _ & _). rewrite Eb in En. rewrite Hin in En. apply (f_equal (fun x => match x with Ok p => fst p | _ => re end)) in En. cbn [fst] in En. rewrite Hre, <- En. reflexivity. }
  split; [exact Lr|]. intros u Hu. destruct (ofold_scatter k u (map (fun err => (row, err)) es) Hu) with (errs := repeat 0%R k) (r := r) as [_ Q].
  - apply Forall_map, Forall_of_nth. intros j err Hre. assert (Hjl : j < List.length es) by (apply nth_error_Some; rewrite Hre; discriminate). destruct (nth_error ns j) as [n|] eqn:En; [|apply nth_error_None in En; change (@F RNum) with R in *; lia].
    rewrite (V j n En) in Hre. injection Hre as <-. pose proof (Forall_nth_error _ _ _ _ Hw En) as [(HL & _) Hin]. cbn [fst snd]. split; [rewrite map_length, firstn_length; change (@F RNum) with R in *; lia|].
    eapply Forall_impl; [|exact Hf]. cbv beta. intros; lia.
  - apply repeat_length.
  - refine (eq_trans _ (eq_trans (f_equal (fun z => @ofold _ (list R) (@scatter RNum false row) es (repeat z k)) (eq_sym fzero_R)) Er)). clear - Hf. change (@F RNum) with R in *. assert (G : forall errs, Forall (fun i => 0 <= i)%Z row -> @ofold _ (list R) (fun errs re => @scatter RNum true (fst re) errs (snd re)) (map (fun err => (row, err)) es) errs = @ofold _ (list R) (@scatter RNum false row) es errs).
    { induction es as [|err t IH]; intros errs H; [reflexivity|]. cbn [map ofold fst snd]. replace (@scatter RNum true row errs err) with (@scatter RNum false row errs err).
      - destruct (@scatter RNum false row errs err); cbn [bind]; [apply IH; exact H|reflexivity|reflexivity].
      - unfold scatter. apply ofold_ext_all. intros s e. destruct (lget row e) as [i| |] eqn:Ei; cbn [bind]; try reflexivity. apply lget_Ok, nth_error_In in Ei. rewrite Forall_forall in H. specialize (H i Ei). destruct (Z.leb_spec 0 i); [reflexivity|lia]. }
    apply G. eapply Forall_impl; [|exact Hf]. cbv beta. intros; lia.
  - rewrite Q, inner_zero, Rplus_0_l. rewrite <- L1. f_equal. apply nth_error_ext. intros j. rewrite !nth_error_map. change (@F RNum) with R in *. destruct (Nat.lt_ge_cases j (List.length es)) as [Hjl|Hjl].
    2: { rewrite !(proj2 (nth_error_None _ _)) by (rewrite ?seq_length; lia). reflexivity. }
    destruct (nth_error ns j) as [n|] eqn:En; [|apply nth_error_None in En; lia]. rewrite (V j n En). rewrite (nth_error_nth' _ 0) by (rewrite seq_length; lia). rewrite seq_nth by lia. cbn [option_map fst snd plus]. rewrite En. f_equal.
    assert (En2 : nth j (map n_w ns) [] = n_w n) by (apply nth_error_nth; rewrite nth_error_map, En; reflexivity). change (@F RNum) with R in *. rewrite En2.
    pose proof (Forall_nth_error _ _ _ _ Hw En) as [(HL & _) Hin]. change (@F RNum) with R in *. assert (Lm : forall g : R -> R, List.length (map g (firstn (f_nin f) (n_w n))) = f_nin f) by (intros g; rewrite map_length, firstn_length; change (@F RNum) with R in *; lia). change (@F RNum) with R in *. rewrite Lm. now rewrite pair_inner by lia.
Qed.
Lemma conv_one_layer (l : @Layer RNum) kd (f : Filter) mi ns k a b opt (v e : list R) reset o l1 row : l_body l = BFilter kd (set_maxIndex f mi) ns -> (kd = Conv1D \/ kd = Conv2D) -> l_opts l = [] -> l_in l = k -> f_index f = [row] ->
  rowsOK 0 k (f_nin f) (f_index f) -> f_kernels f = List.length ns -> Forall (wf_plain (f_nin f)) ns ->
  map nset ns = repeat (a, b) (List.length ns) -> List.length v = k -> List.length e = List.length ns -> layer_output l v reset = Ok (o, l1) ->
  exists r l2, layer_backOutput opt l1 e = Ok (r, l2) /\
  transposes k (List.length ns) (layer_weights l) (fun _ u => map (@valueAt RNum u) row) (fun j => neuron_error a b (nth j (layer_weights l) []) (map (@valueAt RNum v) row) (nth j e 0%R)) r.
Proof.
  intros Eb Hkd Ho Hi Hrow HR Hkn Hw HS Hv He E. set (f1 := set_maxIndex f mi) in *. unfold layer_output in E. rewrite Eb, Ho in E. cbn [opts_testing ofold] in E.
  assert (E' : exists ns1, conv_output f1 ns v = Ok (o, ns1) /\ l1 = @mkLayer RNum (l_in l) (BFilter kd f1 ns1) []).
  { destruct Hkd as [-> | ->]; cbn [body_output] in E; destruct (conv_output f1 ns v) as [[o1 ns1]| |]; cbn [bind] in E; try discriminate; injection E as <- <-; eauto. }
  clear E. destruct E' as (ns1 & E & ->).
  destruct (conv_output_wf k f1 ns v (List.length ns) HR ltac:(cbn [f_index f1 set_maxIndex]; rewrite Hrow; cbn; lia) Hkn Hw Hv) as (o' & ns' & E' & _ & W1 & EW). rewrite E in E'. injection E' as <- <-.
  assert (L1 : List.length ns1 = List.length ns) by (rewrite <- (map_length n_w ns1), EW; apply map_length).
  assert (Hvals : map (fun i => nth (Z.to_nat i) v 0%R) row = map (@valueAt RNum v) row).
  { apply map_ext_in. intros i Hi'. rewrite Hrow in HR. destruct (Forall_inv HR) as [_ Hf]. rewrite Forall_forall in Hf. specialize (Hf i Hi'). unfold valueAt. destruct (Z.leb_spec 0 i); [|lia]. now rewrite fzero_R. }
  assert (HV : forall j n, nth_error ns j = Some n -> exists last, nth_error ns1 j = Some (@set_sum RNum n (@neuron_sum RNum n (map (@valueAt RNum v) row)) last)).
  { rewrite <- Hvals. unfold conv_output in E. cbn [f_index f1 set_maxIndex] in E. rewrite Hrow in E, HR. cbn [ofold fst snd] in E. destruct (Forall_inv HR) as [Hl Hf].
    rewrite (@convWindow_ok RNum f1 k v row Hl Hf Hv) in E. cbn [bind] in E. apply bind_Ok_inv in E as ([o2 ns2] & E & E2). apply bind_Ok_inv in E2 as (? & _ & E2). injection E2 as _ <-.
    apply bind_Ok_inv in E as ([o3 ns3] & E & E3). injection E3 as _ ->. apply bind_Ok_inv in E as ([o4 ns4] & Ee & E). injection E as _ ->. pose proof (each_inv _ _ _ _ Ee) as (_ & _ & Hj).
    intros j n Hjn. destruct (Hj j n Hjn) as (b0 & n' & _ & -> & En). apply simple_output_inv in En as (_ & last & _ & ->). exists last. now rewrite fzero_R. }
  destruct (conv_one_adjoint opt k f1 ns1 e row Hrow HR W1 ltac:(change (@F RNum) with R in *; lia)) as (r & ns2 & Er & HT).
  exists r. unfold layer_backOutput. cbn [l_body l_opts l_in layer_weights]. rewrite Hi.
  assert (Eb2 : exists l2, bind (body_back opt k (BFilter kd f1 ns1) (opts_back (body_weights (BFilter kd f1 ns1)) [] e)) (fun eb => let (e0, b0) := eb in Ok (e0, @mkLayer RNum k b0 [])) = Ok (r, l2)).
  { destruct Hkd as [-> | ->]; cbn [body_back opts_back fold_left]; rewrite Er; cbn [bind]; eauto. }
  destruct Eb2 as (l2 & Eb2). exists l2. split; [exact Eb2|]. unfold layer_weights. rewrite Eb. cbn [body_weights]. rewrite L1, EW in HT. eapply transposes_ext; [exact HT|reflexivity|].
  intros j Hj. destruct (nth_error ns j) as [n|] eqn:En; [|apply nth_error_None in En; lia]. destruct (HV j n En) as (last & ->).
  pose proof (Forall_nth_error _ _ _ _ Hw En) as [(HL & _) Hin]. rewrite Hrow in HR. destruct (Forall_inv HR) as [Hl _].
  rewrite sum_error by (rewrite map_length; change (@F RNum) with R in *; lia).
  assert (En2 : nth j (map n_w ns) [] = n_w n) by (apply nth_error_nth; rewrite nth_error_map, En; reflexivity). change (@F RNum) with R in *. rewrite En2. destruct (@settings_at RNum ns a b _ HS j n En) as [-> ->]. reflexivity.
Qed.
Lemma tile1_length C X k (v : list R) p : List.length (@tile1 RNum C X k v p) = k * C.
Proof. unfold tile1. rewrite (flat_map_length_const _ _ C) by (intros; rewrite map_length; apply seq_length). now rewrite seq_length. Qed.
Lemma tile1_nth C X k (v : list R) p i : 0 < C -> i < k * C -> nth i (@tile1 RNum C X k v p) 0%R = if p * k + i / C <? X then nth (cell1 C (p * k + i / C) (i mod C)) v 0%R else 0%R.
Proof.
  intros HC Hi. pose proof (Nat.div_mod i C ltac:(lia)) as Ei. pose proof (Nat.mod_upper_bound i C ltac:(lia)) as Em. assert (Hq : i / C < k) by (apply Nat.div_lt_upper_bound; lia).
  apply nth_error_nth. unfold tile1. replace i with (i / C * C + i mod C) at 1 by lia.
  rewrite (nth_error_flat_map_const _ _ C) with (a := i / C); [| intros; rewrite map_length; apply seq_length | rewrite (nth_error_nth' _ 0) by (rewrite seq_length; lia); now rewrite seq_nth | lia ].
  rewrite nth_error_map, (nth_error_nth' _ 0) by (rewrite seq_length; lia). rewrite seq_nth by lia. cbn [option_map plus]. rewrite fzero_R. reflexivity.
Qed.

(* ================= C31 =================
   Exact arithmetic; layers without layer optimizers, in any state, right after an output for [v]. *)
Section T.
Variables (d : @LDesc RNum) (opt : @SGD RNum).
Hypothesis Hopts : d_opts d = [].
Lemma no_opts s l : @layer_of RNum d s l -> l_opts l = [].
Proof.
  intros (draws & masks & l0 & Hb & HV & HW). apply works_opts in HW. destruct (built_finish _ _ _ _ _ Hb) as (nin & b & ->). cbn [finish l_opts] in HW. rewrite Hopts in HW. cbn in HW. now inversion HW.
Qed.
(* 2-D locally connected layers: the errors are the transpose of the forward pass, for every shape. Neuron j reads the tile
   [reads j]: its output is the activation of its weights on that tile, and the backward pass uses the same tile. *)
Theorem C31_locally2D : forall (C X Y f k : nat) (l : Layer) (v e : list R) reset o l1,
  d_type d = t_local -> d_filters d = Z.of_nat f -> d_ksize d = Z.of_nat k -> 0 < C -> 0 < X -> 0 < Y -> layer_of d [C; X; Y] l ->
  List.length v = C * X * Y -> List.length e = covering X k * covering Y k * f -> layer_output l v reset = Ok (o, l1) ->
  let reads := fun j u => @tile2 RNum C X Y k u ((j / f) mod covering X k) ((j / f) / covering Y k) in
  List.length (layer_weights l) = covering X k * covering Y k * f /\
  (forall j w, nth_error (layer_weights l) j = Some w -> nth_error o j = Some (fires (d_act d) (d_bias d) w (reads j v))) /\
  exists r l2, layer_backOutput opt l1 e = Ok (r, l2) /\
    transposes (C * X * Y) (covering X k * covering Y k * f) (layer_weights l) reads (fun j => neuron_error (d_act d) (d_bias d) (nth j (layer_weights l) []) (reads j v) (nth j e 0%R)) r.
Proof.
  intros C X Y f k l v e reset o l1 Ht Hf Hk HC HX HY HL Hv He E reads. pose proof (no_opts _ _ HL) as Ho.
  destruct (locally2D_values d C X Y f k l v reset Ht Hf Hk HC HX HY HL Hv) as (K0 & K1 & K2 & LW & _ & out & b' & Eb & _ & HV).
  assert (Eo : o = out). { unfold layer_output in E. rewrite Eb, Ho in E. cbn [bind opts_testing ofold] in E. now injection E. } subst out.
  split; [exact LW|].
  assert (Hpos : Forall (fun x => 0 < x) [C; X; Y]) by (repeat constructor; auto).
  assert (Hsane : sane_kernel d) by (unfold sane_kernel; rewrite Ht; lia).
  destruct (layer_of_wf d [C; X; Y] l HL Hpos Hsane) as (draws & masks & l0 & B & W0 & W & SL & SS).
  { intros ? ? l0 B. destruct B; try congruence; exact I. }
  destruct B; try congruence; [destruct H0 as [H0|[H0 _]]; discriminate|].
  injection H0 as <- <- <-. assert (f0 = f) by lia. assert (ks = k) by lia. subst f0 ks. pose proof (neurons_wf _ _ _ _ _ _ Nat.lt_0_1 H7) as [Ln _].
  destruct (filter_state _ _ _ l _ _ ns _ _ SL SS W I) as (mi & ns' & Eb' & L & ES & FW & EW). cbn [f_nin] in FW.
  split.
  { intros j w Hj. pose proof (Nat.div_mod j f ltac:(lia)) as Ej. pose proof (Nat.mod_upper_bound j f ltac:(lia)) as Em. replace j with (j / f * f + j mod f) in Hj |- * by lia. rewrite (HV _ _ _ Em Hj).
    unfold reads. now replace ((j / f * f + j mod f) / f) with (j / f) by (replace (j / f * f + j mod f) with j by lia; reflexivity). }
  rewrite <- (tiles_covering X k), <- (tiles_covering Y k) in * by auto.
  destruct (loc_layer l _ _ mi ns' (C * X * Y) (d_act d) (d_bias d) opt v e reset o l1 Eb' (or_intror eq_refl) Ho) as (r & l2 & Er & HT).
  - destruct W as (Wi & _). rewrite Wi. apply cells3.
  - apply loc2D_rows.
  - exact H3.
  - cbn [f_kernels]. lia.
  - cbn [f_index f_filters]. unfold loc2D_index. rewrite map_length, seq_length. lia.
  - cbn [f_kpf f_index]. unfold loc2D_index. now rewrite map_length, seq_length.
  - exact FW.
  - rewrite ES, (mk_full_settings _ _ _ _ _ _ H7). f_equal. lia.
  - exact Hv.
  - lia.
  - exact E.
  - exists r, l2. split; [exact Er|]. cbn [f_filters f_index f_kpf] in HT. assert (HLn : List.length ns' = tiles X k * tiles Y k * f) by lia. rewrite HLn in HT.
    assert (Hw : forall j u, j < tiles X k * tiles Y k * f -> map (@valueAt RNum u) (nth (j / f) (loc2D_index C X k (tiles X k) (tiles Y k) (C * X * Y) (tiles X k * tiles Y k)) []) = reads j u).
    { intros j u Hj. unfold reads. rewrite <- ?(tiles_covering X k), <- ?(tiles_covering Y k) by auto. apply loc2D_window. apply Nat.div_lt_upper_bound; lia. }
    eapply transposes_ext; [exact HT|exact Hw|]. intros j Hj. cbv beta. now rewrite Hw.
Qed.

(* 1-D: what the code does: neuron j reads tile j / f but sends its errors to tile j mod (number of tiles) *)
Lemma locally1D_back : forall (s : list nat) (C X f k : nat) (l : Layer) (v e : list R) reset o l1,
  d_type d = t_local -> d_filters d = Z.of_nat f -> d_ksize d = Z.of_nat k -> (s = [C; X] \/ s = [X] /\ C = 1) -> 0 < C -> 0 < X -> layer_of d s l ->
  List.length v = C * X -> List.length e = covering X k * f -> layer_output l v reset = Ok (o, l1) ->
  0 < k <= X /\ 0 < f /\ List.length (layer_weights l) = covering X k * f /\ (forall w, In w (layer_weights l) -> List.length w = k * C + 1) /\
  (forall j w, nth_error (layer_weights l) j = Some w -> nth_error o j = Some (fires (d_act d) (d_bias d) w (@tile1 RNum C X k v (j / f)))) /\
  exists r l2, layer_backOutput opt l1 e = Ok (r, l2) /\
    transposes (C * X) (covering X k * f) (layer_weights l) (fun j u => @tile1 RNum C X k u (j mod covering X k))
      (fun j => neuron_error (d_act d) (d_bias d) (nth j (layer_weights l) []) (@tile1 RNum C X k v (j / f)) (nth j e 0%R)) r.
Proof.
  intros s C X f k l v e reset o l1 Ht Hf Hk Hs HC HX HL Hv He E. pose proof (no_opts _ _ HL) as Ho.
  destruct (C29_locally1D d s C X f k l v reset Ht Hf Hk Hs HC HX HL Hv) as (K0 & LW & HWl & out & b' & Eb & _ & HV).
  assert (Eo : o = out). { unfold layer_output in E. rewrite Eb, Ho in E. cbn [bind opts_testing ofold] in E. now injection E. } subst out.
  destruct (shape1 s C X Hs HC HX) as [Hpos Hcells].
  assert (Hsane : sane_kernel d) by (unfold sane_kernel; rewrite Ht; lia).
  destruct (layer_of_wf d s l HL Hpos Hsane) as (draws & masks & l0 & B & W0 & W & SL & SS).
  { intros ? ? l0 B. destruct B; try congruence; exact I. }
  destruct B; try congruence; [|subst s; destruct Hs as [Hs|[Hs _]]; discriminate].
  assert (E1 : c = C /\ x = X) by (destruct H0 as [H0|[H0 ?]], Hs as [Hs|[Hs ?]]; rewrite H0 in Hs; try discriminate; injection Hs; intros; subst; auto). destruct E1 as [-> ->].
  assert (f0 = f) by lia. assert (ks = k) by lia. subst f0 ks. pose proof (neurons_wf _ _ _ _ _ _ Nat.lt_0_1 H6) as [Ln _].
  destruct (filter_state _ _ _ l _ _ ns _ _ SL SS W I) as (mi & ns' & Eb' & L & ES & FW & EW). cbn [f_nin] in FW.
  split; [exact K0|]. split; [exact H3|]. split; [exact LW|]. split; [exact HWl|]. split.
  { intros j w Hj. pose proof (Nat.div_mod j f ltac:(lia)) as Ej. pose proof (Nat.mod_upper_bound j f ltac:(lia)) as Em. replace j with (j / f * f + j mod f) in Hj |- * by lia. rewrite (HV _ _ _ Em Hj).
    now replace ((j / f * f + j mod f) / f) with (j / f) by (replace (j / f * f + j mod f) with j by lia; reflexivity). }
  rewrite <- (tiles_covering X k) in * by auto.
  destruct (loc_layer l _ _ mi ns' (C * X) (d_act d) (d_bias d) opt v e reset o l1 Eb' (or_introl eq_refl) Ho) as (r & l2 & Er & HT).
  - destruct W as (Wi & _). now rewrite Wi.
  - apply loc1D_rows.
  - exact H3.
  - cbn [f_kernels]. lia.
  - cbn [f_index f_filters]. unfold loc1D_index. rewrite map_length, seq_length. lia.
  - cbn [f_kpf f_index]. unfold loc1D_index. now rewrite map_length, seq_length.
  - exact FW.
  - rewrite ES, (mk_full_settings _ _ _ _ _ _ H6). f_equal. lia.
  - exact Hv.
  - lia.
  - exact E.
  - exists r, l2. split; [exact Er|]. cbn [f_filters f_index f_kpf] in HT. assert (HLn : List.length ns' = tiles X k * f) by lia. rewrite HLn in HT.
    eapply transposes_ext; [exact HT| |].
    + intros j u Hj. cbv beta. rewrite (@loc1D_window RNum); [reflexivity|]. apply Nat.mod_upper_bound. nia.
    + intros j Hj. cbv beta. rewrite (@loc1D_window RNum); [reflexivity|]. apply Nat.div_lt_upper_bound; lia.
Qed.
(* 1-D with one filter or one tile (missing: several filters and several tiles, refuted below) *)
Theorem C31_locally1D_partial : forall (s : list nat) (C X f k : nat) (l : Layer) (v e : list R) reset o l1,
  d_type d = t_local -> d_filters d = Z.of_nat f -> d_ksize d = Z.of_nat k -> (s = [C; X] \/ s = [X] /\ C = 1) -> 0 < C -> 0 < X -> f = 1 \/ covering X k = 1 -> layer_of d s l ->
  List.length v = C * X -> List.length e = covering X k * f -> layer_output l v reset = Ok (o, l1) ->
  let reads := fun j u => @tile1 RNum C X k u (j / f) in
  List.length (layer_weights l) = covering X k * f /\
  (forall j w, nth_error (layer_weights l) j = Some w -> nth_error o j = Some (fires (d_act d) (d_bias d) w (reads j v))) /\
  exists r l2, layer_backOutput opt l1 e = Ok (r, l2) /\
    transposes (C * X) (covering X k * f) (layer_weights l) reads (fun j => neuron_error (d_act d) (d_bias d) (nth j (layer_weights l) []) (reads j v) (nth j e 0%R)) r.
Proof.
  intros s C X f k l v e reset o l1 Ht Hf Hk Hs HC HX H1 HL Hv He E reads. destruct (locally1D_back s C X f k l v e reset o l1 Ht Hf Hk Hs HC HX HL Hv He E) as (K0 & F0 & LW & _ & HV & r & l2 & Er & HT).
  split; [exact LW|]. split; [exact HV|]. exists r, l2. split; [exact Er|]. eapply transposes_ext; [exact HT| |reflexivity]. intros j u Hj. unfold reads. f_equal. destruct H1 as [-> | H1].
  - rewrite Nat.div_1_r. apply Nat.mod_small. lia.
  - rewrite H1 in *. rewrite Nat.mod_1_r. symmetry. apply Nat.div_small. lia.
Qed.
(* With several filters and several tiles: an error on the second neuron reaches the second tile, which this neuron did not read. *)
Theorem C31_locally1D_refuted : forall (s : list nat) (C X f k : nat) (l : Layer) (v : list R) reset o l1 w,
  d_type d = t_local -> d_filters d = Z.of_nat f -> d_ksize d = Z.of_nat k -> (s = [C; X] \/ s = [X] /\ C = 1) -> 0 < C -> 0 < X -> 2 <= f -> 2 <= covering X k -> layer_of d s l ->
  d_act d = a_identity -> nth_error (layer_weights l) 1 = Some w -> nth 0 w 0%R <> 0%R ->
  List.length v = C * X -> layer_output l v reset = Ok (o, l1) ->
  let e := map (fun j => if j =? 1 then 1%R else 0%R) (seq 0 (covering X k * f)) in
  let reads := fun j u => @tile1 RNum C X k u (j / f) in
  exists r l2, layer_backOutput opt l1 e = Ok (r, l2) /\
    ~ transposes (C * X) (covering X k * f) (layer_weights l) reads (fun j => neuron_error (d_act d) (d_bias d) (nth j (layer_weights l) []) (reads j v) (nth j e 0%R)) r.
Proof.
  intros s C X f k l v reset o l1 w Ht Hf Hk Hs HC HX Hf2 HK2 HL Ha Hw Hw0 Hv E e reads.
  assert (He : List.length e = covering X k * f) by (unfold e; rewrite map_length, seq_length; reflexivity).
  destruct (locally1D_back s C X f k l v e reset o l1 Ht Hf Hk Hs HC HX HL Hv He E) as (K0 & F0 & LW & HWl & HV & r & l2 & Er & HT). exists r, l2. split; [exact Er|]. intros HT'.
  destruct HT as [_ HT], HT' as [_ HT']. set (u := map (fun i => if i =? k * C then 1%R else 0%R) (seq 0 (C * X))).
  assert (Hu : List.length u = C * X) by (unfold u; rewrite map_length, seq_length; reflexivity). specialize (HT u Hu). specialize (HT' u Hu). rewrite HT in HT'. clear HT.
  assert (Hkx : k < X). { pose proof (tiles_spec X k ltac:(lia) HX) as (T1 & T2 & _). rewrite tiles_covering in * by lia. nia. }
  assert (Hn : forall j, nth j e 0%R = if j =? 1 then 1%R else 0%R).
  { intros j. destruct (Nat.lt_ge_cases j (covering X k * f)) as [Hj|Hj].
    - unfold e. rewrite (nth_indep _ _ ((fun j => if j =? 1 then 1%R else 0%R) 0)) by (rewrite map_length, seq_length; lia). rewrite (map_nth (fun j => if j =? 1 then 1%R else 0%R)). now rewrite seq_nth.
    - rewrite nth_overflow by lia. destruct (Nat.eqb_spec j 1); [nia|reflexivity]. }
  assert (Hun : forall i, i < C * X -> nth i u 0%R = if i =? k * C then 1%R else 0%R).
  { intros i Hi. unfold u. rewrite (nth_indep _ _ ((fun j => if j =? k * C then 1%R else 0%R) 0)) by (rewrite map_length, seq_length; lia). rewrite (map_nth (fun j => if j =? k * C then 1%R else 0%R)). now rewrite seq_nth. }
  assert (Hd : forall j, neuron_error (d_act d) (d_bias d) (nth j (layer_weights l) []) (@tile1 RNum C X k v (j / f)) (nth j e 0%R) = if j =? 1 then 1%R else 0%R).
  { intros j. unfold neuron_error. rewrite Hn, Ha. cbn [actd]. unfold fone. rewrite RNum_fofZ. change (@F RNum) with R. destruct (j =? 1); lra. }
  assert (Hsel : forall g : nat -> R, Rsum (map (fun j => (if j =? 1 then 1 else 0) * g j)%R (seq 0 (covering X k * f))) = g 1).
  { intros g. rewrite Rsum_sumn. assert (H1 : 1 < covering X k * f) by (clear - Hf2 HK2; nia). rewrite (sumn_single _ 1); [cbn [Nat.eqb]; lra|exact H1|]. intros j Hj Hj1. destruct (Nat.eqb_spec j 1); [lia|lra]. }
  assert (Hsum : forall rd : nat -> list R, Rsum (map (fun j => (neuron_error (d_act d) (d_bias d) (nth j (layer_weights l) []) (@tile1 RNum C X k v (j / f)) (nth j e 0%R) * linear_part (nth j (layer_weights l) []) (rd j))%R) (seq 0 (covering X k * f)))
     = linear_part (nth 1 (layer_weights l) []) (rd 1)).
  { intros rd. rewrite <- (Hsel (fun j => linear_part (nth j (layer_weights l) []) (rd j))). f_equal. apply map_ext. intros j. now rewrite Hd. }
  unfold reads in HT'. pose proof (eq_trans (eq_sym (Hsum (fun j => @tile1 RNum C X k u (j mod covering X k)))) (eq_trans HT' (Hsum (fun j => @tile1 RNum C X k u (j / f))))) as HT2. clear HT'. rename HT2 into HT'. cbv beta in HT'.
  rewrite (Nat.mod_small 1) in HT' by lia. rewrite (Nat.div_small 1) in HT' by lia.
  rewrite (nth_error_nth _ _ [] Hw) in HT'. assert (Hlw : List.length w = k * C + 1) by (apply HWl; eapply nth_error_In; exact Hw).
  change (@F RNum) with R in *. rewrite !linear_dotp in HT' by (rewrite tile1_length, Hlw; lia). rewrite !dotp_R in HT' by (rewrite tile1_length, Hlw; lia). rewrite !tile1_length in HT'.
  assert (T : forall p i, p <= 1 -> i < k * C -> nth i (@tile1 RNum C X k u p) 0%R = if (p =? 1) && (i =? 0) then 1%R else 0%R).
  { intros p i Hp Hi. rewrite tile1_nth by auto. pose proof (Nat.div_mod i C ltac:(lia)) as Ei. pose proof (Nat.mod_upper_bound i C ltac:(lia)) as Em. assert (Hq : i / C < k) by (apply Nat.div_lt_upper_bound; lia).
    assert (Z0 : p * k * C + i <> k * C -> (if (p =? 1) && (i =? 0) then 1%R else 0%R) = 0%R). { intros H. destruct (Nat.eqb_spec p 1), (Nat.eqb_spec i 0); try reflexivity. subst. lia. }
    assert (Ec : cell1 C (p * k + i / C) (i mod C) = p * k * C + i) by (unfold cell1; nia).
    destruct (Nat.ltb_spec (p * k + i / C) X) as [HX'|HX'].
    - rewrite Hun by (unfold cell1; nia). rewrite Ec. destruct (Nat.eqb_spec (p * k * C + i) (k * C)) as [Q|Q]; [|symmetry; exact (Z0 Q)]. assert (p = 1) by (destruct p as [|[|]]; lia). subst p. assert (i = 0) by lia. subst i. reflexivity.
    - symmetry. apply Z0. intros Q. assert (p = 1) by (destruct p as [|[|]]; lia). subst p. assert (i = 0) by lia. subst i. rewrite Nat.div_0_l in HX' by lia. lia. }
  assert (HkC : 0 < k * C) by nia.
  assert (S1 : sumn (k * C) (fun i => nth i (@tile1 RNum C X k u 1) 0 * nth i w 0)%R = nth 0 w 0%R).
  { rewrite (sumn_single _ 0); [|exact HkC|intros j Hj Hj0; rewrite T by lia; destruct (Nat.eqb_spec j 0); [lia|cbn [andb Nat.eqb]; lra]]. rewrite T by lia. cbn [andb Nat.eqb]. lra. }
  assert (S0 : sumn (k * C) (fun i => nth i (@tile1 RNum C X k u 0) 0 * nth i w 0)%R = 0%R).
  { apply sumn_0. intros j Hj. rewrite T by lia. cbn [andb Nat.eqb]. lra. }
  apply Hw0. exact (eq_trans (eq_sym S1) (eq_trans HT' S0)).
Qed.

(* Convolutions with one position (the kernel is as large as the input): the transpose, all filters sharing the window.
   Missing: several positions, refuted below. *)
Theorem C31_convolution1D_partial : forall (s : list nat) (C X f k : nat) (l : Layer) (v e : list R) reset o l1,
  d_type d = t_conv -> d_filters d = Z.of_nat f -> d_ksize d = Z.of_nat k -> (s = [C; X] \/ s = [X] /\ C = 1) -> 0 < C -> 0 < X -> k = X -> layer_of d s l ->
  List.length v = C * X -> List.length e = (X - k + 1) * f -> layer_output l v reset = Ok (o, l1) ->
  let reads := fun j u => @window1 RNum C k u (j / f) in
  let weights := concat (repeat (layer_weights l) (X - k + 1)) in
  List.length weights = (X - k + 1) * f /\
  (forall j w, nth_error weights j = Some w -> nth_error o j = Some (fires (d_act d) (d_bias d) w (reads j v))) /\
  exists r l2, layer_backOutput opt l1 e = Ok (r, l2) /\
    transposes (C * X) ((X - k + 1) * f) weights reads (fun j => neuron_error (d_act d) (d_bias d) (nth j weights []) (reads j v) (nth j e 0%R)) r.
Proof.
  intros s C X f k l v e reset o l1 Ht Hf Hk Hs HC HX -> HL Hv He E reads weights. pose proof (no_opts _ _ HL) as Ho. change (@F RNum) with R in *.
  destruct (@C28_convolution1D RNum d s C X f X l v reset Ht Hf Hk Hs HC HX HL Hv) as (_ & _ & LW & _ & out & b' & Eb & _ & HV).
  assert (Eo : o = out). { unfold layer_output in E. rewrite Eb, Ho in E. cbn [bind opts_testing ofold] in E. now injection E. } subst out.
  unfold weights, reads. clear weights reads. replace (X - X + 1) with 1 in * by lia. cbn [repeat concat]. rewrite app_nil_r. split; [change (@F RNum) with R in *; lia|].
  split. { intros j w Hj. assert (j < f). { rewrite <- LW. apply nth_error_Some. intros H0. pose proof (eq_trans (eq_sym Hj) H0). discriminate. } rewrite Nat.div_small by lia. apply (HV 0 j w); [lia|exact Hj]. }
  destruct (shape1 s C X Hs HC HX) as [Hpos Hcells].
  assert (Hsane : sane_kernel d) by (unfold sane_kernel; rewrite Ht; lia).
  destruct (layer_of_wf d s l HL Hpos Hsane) as (draws & masks & l0 & B & W0 & W & SL & SS).
  { intros ? ? l0 B. destruct B; try congruence; exact I. }
  destruct B; try congruence; [|subst s; destruct Hs as [Hs|[Hs _]]; discriminate].
  assert (E1 : c = C /\ x = X) by (destruct H0 as [H0|[H0 ?]], Hs as [Hs|[Hs ?]]; rewrite H0 in Hs; try discriminate; injection Hs; intros; subst; auto). destruct E1 as [-> ->].
  assert (f0 = f) by lia. assert (ks = X) by lia. subst f0 ks. pose proof (neurons_wf _ _ _ _ _ _ (Nat.add_pos_r _ _ Nat.lt_0_1) H5) as [Ln _].
  destruct (filter_state _ _ _ l _ _ ns _ _ SL SS W I) as (mi & ns' & Eb' & L & ES & FW & EW). cbn [f_nin] in FW.
  assert (HX1 : conv1D_index C X (X - X + 1) = [nth 0 (conv1D_index C X 1) []]) by (replace (X - X + 1) with 1 by lia; reflexivity).
  destruct (conv_one_layer l _ _ mi ns' (C * X) (d_act d) (d_bias d) opt v e reset o l1 (nth 0 (conv1D_index C X 1) []) Eb' (or_introl eq_refl) Ho) as (r & l2 & Er & HT).
  - destruct W as (Wi & _). now rewrite Wi.
  - cbn [f_index]. exact HX1.
  - apply conv1D_rows; auto.
  - cbn [f_kernels]. lia.
  - exact FW.
  - rewrite ES, (mk_full_settings _ _ _ _ _ _ H5). f_equal. lia.
  - exact Hv.
  - lia.
  - exact E.
  - exists r, l2. split; [exact Er|]. cbn [f_index] in HT. assert (Hf' : List.length ns' = 1 * f) by lia. rewrite Hf' in HT.
    assert (Hw : forall j u, j < 1 * f -> map (@valueAt RNum u) (nth 0 (conv1D_index C X 1) []) = @window1 RNum C X u (j / f)).
    { intros j u Hj. rewrite Nat.div_small by lia. rewrite <- (@conv1D_window RNum C X 1 u 0) by lia. apply map_ext_in. intros i Hi. unfold valueAt.
      assert (0 <= i)%Z; [|destruct (Z.leb_spec 0 i); [reflexivity|lia]]. unfold conv1D_index in Hi. cbn [map seq nth] in Hi. apply in_flat_map in Hi as (? & _ & Hi). apply in_map_iff in Hi as (? & <- & _). lia. }
    eapply transposes_ext; [exact HT| |]; intros j; [intros u|]; intros Hj; cbv beta; now rewrite (Hw j _ Hj).
Qed.
Theorem C31_convolution2D_partial : forall (C X Y f k : nat) (l : Layer) (v e : list R) reset o l1,
  d_type d = t_conv -> d_filters d = Z.of_nat f -> d_ksize d = Z.of_nat k -> 0 < C -> 0 < X -> 0 < Y -> k = X -> k = Y -> layer_of d [C; X; Y] l ->
  List.length v = C * X * Y -> List.length e = (X - k + 1) * (Y - k + 1) * f -> layer_output l v reset = Ok (o, l1) ->
  let reads := fun j u => @window2 RNum C X k u ((j / f) mod (X - k + 1)) ((j / f) / (X - k + 1)) in
  let weights := concat (repeat (layer_weights l) ((X - k + 1) * (Y - k + 1))) in
  List.length weights = (X - k + 1) * (Y - k + 1) * f /\
  (forall j w, nth_error weights j = Some w -> nth_error o j = Some (fires (d_act d) (d_bias d) w (reads j v))) /\
  exists r l2, layer_backOutput opt l1 e = Ok (r, l2) /\
    transposes (C * X * Y) ((X - k + 1) * (Y - k + 1) * f) weights reads (fun j => neuron_error (d_act d) (d_bias d) (nth j weights []) (reads j v) (nth j e 0%R)) r.
Proof.
  intros C X Y f k l v e reset o l1 Ht Hf Hk HC HX HY EX EY HL Hv He E reads weights. subst k. subst Y. pose proof (no_opts _ _ HL) as Ho. change (@F RNum) with R in *.
  destruct (@C28_convolution2D RNum d C X X f X l v reset Ht Hf Hk HC HX HY HL Hv) as (_ & _ & _ & LW & _ & out & b' & Eb & _ & HV).
  assert (Eo : o = out). { unfold layer_output in E. rewrite Eb, Ho in E. cbn [bind opts_testing ofold] in E. now injection E. } subst out.
  unfold weights, reads. clear weights reads. replace (X - X + 1) with 1 in * by lia. cbn [Nat.mul Nat.add repeat concat] in *. rewrite app_nil_r. split; [change (@F RNum) with R in *; lia|].
  split. { intros j w Hj. assert (j < f). { rewrite <- LW. apply nth_error_Some. intros H0. pose proof (eq_trans (eq_sym Hj) H0). discriminate. } rewrite Nat.div_small by lia. apply (HV 0 0 j w); [lia|lia|exact Hj]. }
  assert (Hpos : Forall (fun x => 0 < x) [C; X; X]) by (repeat constructor; auto).
  assert (Hsane : sane_kernel d) by (unfold sane_kernel; rewrite Ht; lia).
  destruct (layer_of_wf d [C; X; X] l HL Hpos Hsane) as (draws & masks & l0 & B & W0 & W & SL & SS).
  { intros ? ? l0 B. destruct B; try congruence; exact I. }
  destruct B; try congruence; [destruct H0 as [H0|[H0 _]]; discriminate|].
  injection H0 as <- <- <-. assert (f0 = f) by lia. assert (ks = X) by lia. subst f0 ks. pose proof (neurons_wf _ _ _ _ _ _ (Nat.mul_pos_pos _ _ (Nat.add_pos_r _ _ Nat.lt_0_1) (Nat.add_pos_r _ _ Nat.lt_0_1)) H6) as [Ln _].
  destruct (filter_state _ _ _ l _ _ ns _ _ SL SS W I) as (mi & ns' & Eb' & L & ES & FW & EW). cbn [f_nin] in FW.
  assert (HX1 : conv2D_index C X X (X - X + 1) ((X - X + 1) * (X - X + 1)) = [nth 0 (conv2D_index C X X 1 1) []]) by (replace (X - X + 1) with 1 by lia; reflexivity).
  destruct (conv_one_layer l _ _ mi ns' (C * X * X) (d_act d) (d_bias d) opt v e reset o l1 (nth 0 (conv2D_index C X X 1 1) []) Eb' (or_intror eq_refl) Ho) as (r & l2 & Er & HT).
  - destruct W as (Wi & _). rewrite Wi. apply cells3.
  - cbn [f_index]. exact HX1.
  - apply conv2D_rows; auto.
  - cbn [f_kernels]. lia.
  - exact FW.
  - rewrite ES, (mk_full_settings _ _ _ _ _ _ H6). f_equal. lia.
  - exact Hv.
  - lia.
  - exact E.
  - exists r, l2. split; [exact Er|]. cbn [f_index] in HT. assert (Hf' : List.length ns' = f + 0) by lia. rewrite Hf' in HT.
    assert (Hw : forall j u, j < f + 0 -> map (@valueAt RNum u) (nth 0 (conv2D_index C X X 1 1) []) = @window2 RNum C X X u ((j / f) mod 1) (j / f / 1)).
    { intros j u Hj. rewrite Nat.div_small by lia. rewrite <- (@conv2D_window RNum C X X 1 1 u 0) by lia. apply map_ext_in. intros i Hi. unfold valueAt.
      assert (0 <= i)%Z; [|destruct (Z.leb_spec 0 i); [reflexivity|lia]]. unfold conv2D_index in Hi. cbn [map seq nth] in Hi. apply in_flat_map in Hi as (? & _ & Hi). apply in_flat_map in Hi as (? & _ & Hi). apply in_map_iff in Hi as (? & <- & _). lia. }
    eapply transposes_ext; [exact HT| |]; intros j; [intros u|]; intros Hj; cbv beta; now rewrite (Hw j _ Hj).
Qed.
End T.

(* ---------- several positions, and examples ---------- *)
(* weights all 1; the bias input is 1/1000 *)
Definition ones : nat -> nat -> nat -> @F RNum := fun _ _ _ => 1%R.
Lemma valid_ones (n : @Neuron RNum) : (n_bias n = 1 / 1000)%R -> n_w n <> [] -> (List.length (n_w n) < 1000)%nat -> Forall (fun w => w = 1)%R (n_w n) -> neuron_isValid n = 0%Z.
Proof.
  intros Hb Hw HL HF. unfold neuron_isValid. rewrite Hb. unfold fgtb. rewrite !RNum_fofZ. cbn [fltb RNum]. unfold Rltb.
  destruct (Rlt_dec (1 / 1000) (-100000)); [lra|]. destruct (Rlt_dec 10000 (1 / 1000)); [lra|]. cbn [orb]. destruct (n_w n) as [|w t] eqn:E; [congruence|]. rewrite <- E in *.
  destruct (Nat.eqb_spec (List.length (n_w n)) 0) as [H0|_]; [rewrite E in H0; discriminate|]. destruct (Z.ltb_spec 1000000 (Z.of_nat (List.length (n_w n)))); [lia|]. cbn [orb].
  replace (existsb _ (n_w n)) with false; [reflexivity|]. symmetry. apply Bool.not_true_is_false. intros H1. apply existsb_exists in H1 as (x & Hx & H1). rewrite Forall_forall in HF. rewrite (HF x Hx) in H1.
  destruct (Rlt_dec 1 (-100000)); [lra|]. destruct (Rlt_dec 10000 1); [lra|]. discriminate.
Qed.
Definition one_neuron (nin b : nat) : @Neuron RNum := @mkNeuron RNum nin b (repeat 1%R nin ++ [Rabs 1]) (1 / 1000)%R (circ_init b (nin + 1)) (circ_init b nin) (repeat fzero nin) fzero a_identity.
Lemma one_neuron_valid nin b : (nin < 100)%nat -> neuron_isValid (one_neuron nin b) = 0%Z.
Proof.
  intros H. apply valid_ones; cbn [one_neuron n_bias n_w].
  - reflexivity.
  - now destruct nin.
  - rewrite app_length, repeat_length. cbn. lia.
  - rewrite Rabs_R1. apply Forall_app. split; [apply Forall_forall; intros x Hx; now apply repeat_spec in Hx|repeat constructor].
Qed.
Definition conv_d : @LDesc RNum := @Convolution RNum 1 1 a_identity [].
Definition conv_l : @Layer RNum := @mkLayer RNum 2 (BFilter Conv1D (mkFilter 1 2 2 1 1 1 [1; 2] [1; 2] (conv1D_index 1 1 2) 0 []) [one_neuron 1 2]) [].
Lemma conv_l_built : layer_of conv_d [2] conv_l.
Proof.
  exists ones, (fun _ _ => true), conv_l. split; [reflexivity|]. split; [|constructor].
  change (neurons_isValid [neuron_isValid (one_neuron 1 2)] = 0%Z). rewrite one_neuron_valid by lia. reflexivity.
Qed.
(* One filter, one channel, windows of one cell, two positions, weights 1, inputs 1 and 1, errors 1 and 1: with any learning rate
   other than zero the errors are not the transpose of the forward pass, since the second position uses weights already updated. *)
Theorem C31_convolution_refuted : forall opt : @SGD RNum, o_lr opt <> 0%R ->
  exists (d : @LDesc RNum) (l l1 l2 : @Layer RNum) (v e o r : list R), d_opts d = [] /\ d_type d = t_conv /\ d_filters d = 1%Z /\ d_ksize d = 1%Z /\ layer_of d [2] l /\
    List.length v = 2 /\ List.length e = 2 /\ layer_output l v false = Ok (o, l1) /\ layer_backOutput opt l1 e = Ok (r, l2) /\
    let reads := fun j u => @window1 RNum 1 1 u (j / 1) in
    let weights := concat (repeat (layer_weights l) 2) in
    ~ transposes 2 2 weights reads (fun j => neuron_error (d_act d) (d_bias d) (nth j weights []) (reads j v) (nth j e 0%R)) r.
Proof.
  intros [lr m] Hlr. cbn [o_lr] in *. change (@F RNum) with R in *.
  assert (E1 : exists o l1, @layer_output RNum conv_l [1%R; 1%R] false = Ok (o, l1) /\ exists r l2, layer_backOutput (@mkSGD RNum lr m) l1 [1%R; 1%R] = Ok (r, l2) /\ exists a b, r = [a; b] /\ (b = 1 + lr / 2)%R).
  { eexists _, _. split; [cbv -[IZR Rplus Rmult Rdiv Rabs]; reflexivity|]. eexists _, _. split; [cbv -[IZR Rplus Rmult Rdiv Rabs]; reflexivity|]. eexists _, _. split; [reflexivity|]. lra. }
  destruct E1 as (o & l1 & E1 & r & l2 & E2 & a & b & -> & Hb).
  exists conv_d, conv_l, l1, l2, [1%R; 1%R], [1%R; 1%R], o, [a; b]. do 4 (split; [reflexivity|]). split; [exact conv_l_built|]. do 2 (split; [reflexivity|]). split; [exact E1|]. split; [exact E2|].
  cbv zeta. intros [_ H]. specialize (H [0; 1]%R eq_refl). apply Hlr. clear E1 E2. cbv -[IZR Rplus Rmult Rdiv Rabs] in H. lra.
Qed.
(* layers of weights 1 that meet the hypotheses: 2 filters of 1 x 1 cells over 2 x 2; 2 filters of 1 cell over 2 cells (also for the refutation);
   1 filter over 2 cells with windows of 1 cell; 1 filter over a whole line of 2 cells *)
Definition loc2_l : @Layer RNum := @mkLayer RNum 4 (BFilter Loc2D (mkFilter 2 8 4 4 1 1 [1; 2; 2] [2; 2; 2] (loc2D_index 1 2 1 2 2 4 4) 0 []) (repeat (one_neuron 1 1) 8)) [].
Definition loc1_l : @Layer RNum := @mkLayer RNum 2 (BFilter Loc1D (mkFilter 2 4 2 2 1 1 [1; 2] [2; 2] (loc1D_index 1 1 2 2) 0 []) (repeat (one_neuron 1 1) 4)) [].
Definition loc0_l : @Layer RNum := @mkLayer RNum 2 (BFilter Loc1D (mkFilter 1 2 2 2 1 1 [1; 2] [1; 2] (loc1D_index 1 1 2 2) 0 []) (repeat (one_neuron 1 1) 2)) [].
Definition line_l : @Layer RNum := @mkLayer RNum 2 (BFilter Conv1D (mkFilter 1 1 1 1 2 2 [1; 2] [1; 1] (conv1D_index 1 2 1) 0 []) [one_neuron 2 1]) [].
Definition square_l : @Layer RNum := @mkLayer RNum 4 (BFilter Conv2D (mkFilter 1 1 1 1 2 4 [1; 2; 2] [1; 1; 1] (conv2D_index 1 2 2 1 1) 0 []) [one_neuron 4 1]) [].
Example C31_examples : layer_of (@LocallyConnected RNum 2 1 a_identity []) [1; 2; 2] loc2_l /\ layer_of (@LocallyConnected RNum 2 1 a_identity []) [2] loc1_l /\ layer_of (@LocallyConnected RNum 1 1 a_identity []) [2] loc0_l /\
  layer_of (@Convolution RNum 1 2 a_identity []) [2] line_l /\ layer_of (@Convolution RNum 1 2 a_identity []) [1; 2; 2] square_l /\
  (exists o l1, @layer_output RNum loc2_l [1; 2; 3; 4]%R false = Ok (o, l1)) /\ (exists o l1, @layer_output RNum loc1_l [1; 2]%R false = Ok (o, l1)) /\ (exists w, nth_error (layer_weights loc1_l) 1 = Some w /\ nth 0 w 0%R <> 0%R) /\
  (exists o l1, @layer_output RNum loc0_l [1; 2]%R false = Ok (o, l1)) /\ (exists o l1, @layer_output RNum line_l [1; 2]%R false = Ok (o, l1)) /\ (exists o l1, @layer_output RNum square_l [1; 2; 3; 4]%R false = Ok (o, l1)).
Proof.
  assert (V1 : neuron_isValid (one_neuron 1 1) = 0%Z) by (apply one_neuron_valid; lia). assert (V2 : neuron_isValid (one_neuron 2 1) = 0%Z) by (apply one_neuron_valid; lia). assert (V4 : neuron_isValid (one_neuron 4 1) = 0%Z) by (apply one_neuron_valid; lia).
  split. { exists ones, (fun _ _ => true), loc2_l. split; [reflexivity|]. split; [|constructor]. change (neurons_isValid (repeat (neuron_isValid (one_neuron 1 1)) 8) = 0%Z). rewrite V1. reflexivity. }
  split. { exists ones, (fun _ _ => true), loc1_l. split; [reflexivity|]. split; [|constructor]. change (neurons_isValid (repeat (neuron_isValid (one_neuron 1 1)) 4) = 0%Z). rewrite V1. reflexivity. }
  split. { exists ones, (fun _ _ => true), loc0_l. split; [reflexivity|]. split; [|constructor]. change (neurons_isValid (repeat (neuron_isValid (one_neuron 1 1)) 2) = 0%Z). rewrite V1. reflexivity. }
  split. { exists ones, (fun _ _ => true), line_l. split; [reflexivity|]. split; [|constructor]. change (neurons_isValid [neuron_isValid (one_neuron 2 1)] = 0%Z). rewrite V2. reflexivity. }
  split. { exists ones, (fun _ _ => true), square_l. split; [reflexivity|]. split; [|constructor]. change (neurons_isValid [neuron_isValid (one_neuron 4 1)] = 0%Z). rewrite V4. reflexivity. }
  split. { eexists _, _. cbv -[IZR Rplus Rmult Rdiv Rabs]. reflexivity. } split. { eexists _, _. cbv -[IZR Rplus Rmult Rdiv Rabs]. reflexivity. }
  split. { exists [1; Rabs 1]%R. split; [reflexivity|]. cbn. lra. }
  split. { eexists _, _. cbv -[IZR Rplus Rmult Rdiv Rabs]. reflexivity. } split. { eexists _, _. cbv -[IZR Rplus Rmult Rdiv Rabs]. reflexivity. }
  eexists _, _. cbv -[IZR Rplus Rmult Rdiv Rabs]. reflexivity.
Qed.
Print Assumptions C31_locally2D.
Print Assumptions C31_locally1D_partial.
Print Assumptions C31_locally1D_refuted.
Print Assumptions C31_convolution1D_partial.
Print Assumptions C31_convolution2D_partial.
Print Assumptions C31_convolution_refuted.
